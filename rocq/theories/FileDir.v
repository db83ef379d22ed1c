(** * Changes of the directory, and the meaning of a lookup. *)
From Coq Require Import ZArith List Lia Bool Arith.
From Verif Require Import Base PackModel PackProps HashModel FileModel FileLemmas FileScan FileInv.
Import ListNotations.
Open Scope Z_scope.

(** ** List update *)
Fixpoint lset {A} (l : list A) (i : nat) (x : A) : list A :=
  match l, i with
  | [], _ => []
  | _ :: t, O => x :: t
  | y :: t, S j => y :: lset t j x
  end.
Lemma lset_nth {A} (x : A) : forall l i j, (i < length l)%nat ->
  nth_error (lset l i x) j = if (i =? j)%nat then Some x else nth_error l j.
Proof.
  induction l as [|y t IH]; intros i j H; [cbn in H; lia|]. destruct i as [|i], j as [|j]; cbn [lset nth_error Nat.eqb]; try reflexivity.
  apply IH. cbn in H; lia.
Qed.
Lemma lset_map {A B} (f : A -> B) x y : forall l i, nth_error l i = Some y -> f x = f y -> map f (lset l i x) = map f l.
Proof.
  induction l as [|z t IH]; intros i H E; [destruct i; discriminate|]. destruct i as [|i]; cbn [lset map nth_error] in *.
  - inversion H; subst. rewrite E. reflexivity.
  - f_equal. apply IH; assumption.
Qed.
Lemma lset_length {A} (x : A) : forall l i, length (lset l i x) = length l.
Proof. induction l as [|y t IH]; intros [|i]; cbn [lset length]; auto. Qed.
Lemma nth_error_lt {A} (l : list A) i x : nth_error l i = Some x -> (i < length l)%nat.
Proof. intros H. apply nth_error_Some. congruence. Qed.

Lemma head_addr_nth z l : head_addr z l = nth 0 (map fst l) z.
Proof. destruct l as [|[a es] t]; reflexivity. Qed.
Lemma next_addr_nth z l i : next_addr z l i = nth (S i) (map fst l) z.
Proof.
  unfold next_addr. generalize (S i) as n. clear i. intros n. revert n.
  induction l as [|[a es] t IH]; intros [|n]; cbn [skipn map nth head_addr]; auto.
Qed.

Lemma maplen (l : list bin) : length (map fst l) = length l.
Proof. apply map_length. Qed.

Definition setb (ch : chains) (h : Z) (i : nat) (b : bin) : chains :=
  fun h' => if h' =? h then lset (ch h) i b else ch h'.
Definition addb (ch : chains) (h : Z) (b : bin) : chains :=
  fun h' => if h' =? h then ch h ++ [b] else ch h'.
Definition updz (f : Z -> Z) (h v : Z) : Z -> Z := fun h' => if h' =? h then v else f h'.

Lemma setb_at ch h i b h' i' : (i < length (ch h))%nat ->
  nth_error (setb ch h i b h') i' = if (h' =? h) && (i =? i')%nat then Some b else nth_error (ch h') i'.
Proof.
  intros H. unfold setb. destruct (h' =? h) eqn:E; cbn [andb]; [|reflexivity]. bz. subst. apply lset_nth, H.
Qed.
Lemma entry_setb ch h i a es es' h' i' k : nth_error (ch h) i = Some (a, es) ->
  entry_at (setb ch h i (a, es')) (h', i', k) =
    if (h' =? h) && (i =? i')%nat then nth_error es' k else entry_at ch (h', i', k).
Proof.
  intros H. unfold entry_at. rewrite setb_at by (eapply nth_error_lt; eauto).
  destruct ((h' =? h) && (i =? i')%nat); reflexivity.
Qed.
Lemma addb_at ch h b h' i' :
  nth_error (addb ch h b h') i' = if (h' =? h) && (i' =? length (ch h))%nat then Some b else nth_error (ch h') i'.
Proof.
  unfold addb. destruct (h' =? h) eqn:E; cbn [andb]; [|reflexivity]. bz. subst.
  destruct (i' =? length (ch h))%nat eqn:E; [apply Nat.eqb_eq in E; subst|apply Nat.eqb_neq in E].
  - rewrite nth_error_app2, Nat.sub_diag by lia. reflexivity.
  - destruct (le_lt_dec (length (ch h)) i') as [L|L]; [|apply nth_error_app1; lia].
    rewrite (proj2 (nth_error_None (ch h ++ [b]) i')) by (rewrite app_length; cbn; lia).
    symmetry. apply nth_error_None. lia.
Qed.
Lemma entry_addb ch h a h' i' k : entry_at (addb ch h (a, [])) (h', i', k) = entry_at ch (h', i', k).
Proof.
  unfold entry_at. rewrite addb_at. destruct ((h' =? h) && (i' =? length (ch h))%nat) eqn:E; [|reflexivity].
  apply andb_prop in E. destruct E as [E1 E2]. bz. apply Nat.eqb_eq in E2. subst.
  rewrite (proj2 (nth_error_None (ch h) (length (ch h)))) by lia. destruct k; reflexivity.
Qed.

(** Same record, for the purpose of [rec_ok]. *)
Definition same_rec (e e' : entry) : Prop :=
  e_info e' = e_info e /\ e_len e' = e_len e /\ e_hash e' = e_hash e /\ e_ct e' = e_ct e /\ e_words e' = e_words e /\ (live e' -> live e).
Lemma same_rec_ok d own t e e' : same_rec e e' -> rec_ok d own t e -> rec_ok d own t e'.
Proof.
  intros (E1 & E2 & E3 & E4 & E5 & E6). unfold rec_ok, named, e_path. rewrite E1, E2, E3, E4, E5.
  intros (H1 & H2 & (N1 & N2 & N3 & N4) & H3). split; [exact H1|]. split; [exact H2|]. split; [|exact H3].
  split; [exact N1|]. split; [exact N2|]. split; [intros Q; apply N3, E6, Q|exact N4].
Qed.

Lemma Dsk_setbin c d d' own ch dang ex h i a es es' :
  Dsk c d own ch dang ex -> 0 <= h < c_maxHash c -> nth_error (ch h) i = Some (a, es) ->
  (forall x, critical own ex x -> own x <> TBin h i -> d' x = d x) ->
  words d' a (c_binSize c) = bin_words (c_binSize c) es' (next_addr (dang h) (ch h) i) ->
  zlen (encs es') <= c_binSize c - 2 -> Forall (eok c h) es' ->
  (forall k e', nth_error es' k = Some e' -> storing e' -> ex <> Some (h, i, k) ->
     exists e, nth_error es k = Some e /\ storing e /\ same_rec e e') ->
  Dsk c d' own (setb ch h i (a, es')) dang ex.
Proof.
  intros [DH DB DR] Hh Hi HD HW HL HF HR.
  assert (MF : forall h', map fst (setb ch h i (a, es') h') = map fst (ch h')).
  { intros h'. unfold setb. destruct (h' =? h) eqn:E; [|reflexivity]. bz. subst. eapply lset_map; [exact Hi|reflexivity]. }
  assert (LT : (i < length (ch h))%nat) by (eapply nth_error_lt; eauto).
  split.
  - intros h' Hh'. destruct (DH h' Hh') as [E1 E2]. split; [assumption|].
    rewrite HD; [|unfold critical; rewrite E1; exact I|rewrite E1; discriminate].
    rewrite E2, !head_addr_nth, MF. reflexivity.
  - intros h' i' a' es1 Hh' Hi'. rewrite setb_at in Hi' by assumption.
    rewrite next_addr_nth, MF, <- next_addr_nth.
    destruct ((h' =? h) && (i =? i')%nat) eqn:E.
    + inversion Hi'; subst a' es1. apply andb_prop in E. destruct E as [E1 E2]. bz. apply Nat.eqb_eq in E2. subst h' i'.
      destruct (DB h i a es Hh Hi) as (B1 & B2 & B3 & B4 & B5). auto.
    + destruct (DB h' i' a' es1 Hh' Hi') as (B1 & B2 & B3 & B4 & B5). split; [assumption|]. split; [assumption|]. split; [|auto].
      rewrite <- B3. apply words_ext. intros x Hx. specialize (B2 x Hx). apply HD; [unfold critical; rewrite B2; exact I|].
      rewrite B2. intros Q. inversion Q; subst. rewrite Z.eqb_refl, Nat.eqb_refl in E. discriminate.
  - intros h' i' k e' Hh' He' Hs Hex. rewrite (entry_setb ch h i a es es' h' i' k Hi) in He'.
    assert (HOLD : exists e, entry_at ch (h', i', k) = Some e /\ storing e /\ same_rec e e').
    { destruct ((h' =? h) && (i =? i')%nat) eqn:E.
      - apply andb_prop in E. destruct E as [E1 E2]. bz. apply Nat.eqb_eq in E2. subst h' i'.
        destruct (HR k e' He' Hs Hex) as (e & E3 & E4 & E5). exists e. split; [|auto]. unfold entry_at. rewrite Hi. exact E3.
      - exists e'. unfold same_rec; repeat (split; [assumption || reflexivity|]); auto. }
    destruct HOLD as (e & He & Hse & SR). apply (same_rec_ok _ _ _ e e' SR).
    assert (SH : shape e).
    { unfold entry_at in He. destruct (nth_error (ch h') i') as [[a1 es1]|] eqn:E1; [|discriminate].
      destruct (DB h' i' a1 es1 Hh' E1) as (_ & _ & _ & _ & F). rewrite Forall_forall in F. apply F. eapply nth_error_In; eauto. }
    eapply rec_ok_ext; [exact SH|apply (DR h' i' k e); assumption| |auto].
    intros x Hx. apply HD; [unfold critical; rewrite Hx; assumption|]. rewrite Hx. discriminate.
Qed.

(** The word that ends chain [h]. *)
Definition tail_word (c : cfg) (ch : chains) (h : Z) : Z :=
  match ch h with [] => c_hashStart c + h | b :: t => fst (last_b t b) + c_binSize c - 1 end.

Lemma last_b_nth : forall l b, nth_error (b :: l) (length l) = Some (last_b l b).
Proof. induction l as [|x t IH]; intros b; [reflexivity|]. cbn [length last_b]. apply IH. Qed.

Lemma bin_words_nth isize es z k : zlen (encs es) <= isize - 1 -> 0 <= k < isize ->
  nth (Z.to_nat k) (bin_words isize es z) 0 =
    if k =? isize - 1 then z else nth (Z.to_nat k) (encs es) 0.
Proof.
  intros H Hk. destruct (k =? isize - 1) eqn:E; bz.
  - subst. apply bin_words_last; assumption.
  - unfold bin_words. unfold zlen in *. pose proof (zlen_nonneg (encs es)).
    destruct (Z.ltb_spec k (Z.of_nat (length (encs es)))).
    + apply app_nth1. lia.
    + rewrite app_nth2 by lia. rewrite app_nth1 by (rewrite repeat_length; lia). rewrite nth_repeat.
      symmetry. apply nth_overflow. lia.
Qed.

Lemma Dsk_dang c d d' own ch dang ex h v :
  Dsk c d own ch dang ex -> wf_cfg c -> 0 <= h < c_maxHash c ->
  (forall x, critical own ex x -> x <> tail_word c ch h -> d' x = d x) -> d' (tail_word c ch h) = v ->
  Dsk c d' own ch (updz dang h v) ex.
Proof.
  intros [DH DB DR] (_ & _ & WS & _) Hh HD HV.
  assert (TT : own (tail_word c ch h) = THash \/ exists i, own (tail_word c ch h) = TBin h i).
  { unfold tail_word. destruct (ch h) as [|b t] eqn:E; [left; apply DH, Hh|]. right. exists (length t).
    pose proof (last_b_nth t b) as LN. rewrite <- E in LN. destruct (last_b t b) as [a es] eqn:EL.
    destruct (DB h (length t) a es Hh LN) as (_ & B2 & _). apply B2. cbn [fst]. lia. }
  split.
  - intros h' Hh'. destruct (DH h' Hh') as [E1 E2]. split; [assumption|]. unfold updz.
    destruct (h' =? h) eqn:E; bz.
    + subst h'. rewrite head_addr_nth in E2 |- *. unfold tail_word in *. destruct (ch h) as [|b t] eqn:EC; [exact HV|].
      cbn [map nth] in *. rewrite <- E2. apply HD; [unfold critical; rewrite E1; exact I|].
      intros Q. pose proof (last_b_nth t b) as LN. rewrite <- EC in LN. destruct (last_b t b) as [a es] eqn:EL.
      destruct (DB h (length t) a es Hh LN) as (_ & B2 & _). cbn [fst] in Q. rewrite (B2 (c_hashStart c + h)) in E1 by lia. discriminate.
    + rewrite <- E2. apply HD; [unfold critical; rewrite E1; exact I|]. intros Q.
      unfold tail_word in *. destruct (ch h) as [|b t] eqn:EC; [lia|].
      pose proof (last_b_nth t b) as LN. rewrite <- EC in LN. destruct (last_b t b) as [a es] eqn:EL.
      destruct (DB h (length t) a es Hh LN) as (_ & B2 & _). cbn [fst] in Q. rewrite (B2 (c_hashStart c + h')) in E1 by lia. discriminate.
  - intros h' i a es Hh' Hi. destruct (DB h' i a es Hh' Hi) as (B1 & B2 & B3 & B4 & B5).
    split; [assumption|]. split; [assumption|]. split; [|auto].
    assert (ZL : zlen (bin_words (c_binSize c) es (next_addr (dang h') (ch h') i)) = c_binSize c) by (apply bin_words_length; lia).
    assert (ZL' : zlen (bin_words (c_binSize c) es (next_addr (updz dang h v h') (ch h') i)) = c_binSize c) by (apply bin_words_length; lia).
    apply words_of_nth; [exact ZL'|]. intros k Hk. rewrite bin_words_nth by lia.
    pose proof (words_eq_nth d a (c_binSize c) _ ZL B3 k Hk) as BW. rewrite bin_words_nth in BW by lia.
    assert (CR : critical own ex (a + k)) by (unfold critical; rewrite B2 by lia; exact I).
    destruct (Z.eq_dec (a + k) (tail_word c ch h)) as [ET|NT].
    + assert (h' = h /\ S i = length (ch h) /\ k = c_binSize c - 1) as (-> & EI & EK).
      { rewrite <- ET in TT. rewrite B2 in TT by lia. destruct TT as [TT|[i0 TT]]; [discriminate|].
        inversion TT; subst h' i0. split; [reflexivity|].
        unfold tail_word in ET. destruct (ch h) as [|b t] eqn:EC; [destruct i; discriminate|].
        pose proof (last_b_nth t b) as LN. rewrite <- EC in LN. destruct (last_b t b) as [a1 es1] eqn:EL. cbn [fst] in ET.
        destruct (DB h (length t) a1 es1 Hh LN) as (_ & C2 & _).
        assert (TBin h i = TBin h (length t)) as Q by (rewrite <- (B2 (a + k)) by lia; apply C2; lia).
        inversion Q; subst i. rewrite EC in LN. rewrite Hi in LN. inversion LN; subst a1 es1. cbn [length]. split; [reflexivity|lia]. }
      rewrite ET, HV. rewrite EK, Z.eqb_refl. rewrite next_addr_nth, nth_overflow by (rewrite maplen; lia).
      unfold updz. rewrite Z.eqb_refl. reflexivity.
    + rewrite HD by assumption. rewrite BW. destruct (k =? c_binSize c - 1) eqn:EK; [|reflexivity]. bz.
      unfold updz. destruct (h' =? h) eqn:EH; [|reflexivity]. bz. subst h'.
      assert (LT : (S i < length (ch h))%nat).
      { assert (i < length (ch h))%nat by (eapply nth_error_lt; eauto).
        destruct (Nat.eq_dec (S i) (length (ch h))) as [EI|]; [|lia]. exfalso. apply NT. unfold tail_word.
        destruct (ch h) as [|b t] eqn:EC; [destruct i; discriminate|]. cbn [length] in EI. inversion EI; subst i.
        rewrite (last_b_nth t b) in Hi. injection Hi as Q. rewrite Q. cbn [fst]. lia. }
      rewrite !next_addr_nth. apply nth_indep. rewrite maplen. assumption.
  - intros h' i k e Hh' He Hs Hex.
    assert (SH : shape e).
    { unfold entry_at in He. destruct (nth_error (ch h') i) as [[a es]|] eqn:E; [|discriminate].
      destruct (DB h' i a es Hh' E) as (_ & _ & _ & _ & F). rewrite Forall_forall in F. apply F. eapply nth_error_In; eauto. }
    eapply rec_ok_ext; [exact SH|apply (DR h' i k e); assumption| |auto].
    intros x Hx. apply HD; [unfold critical; rewrite Hx; assumption|].
    intros ->. rewrite Hx in TT. destruct TT as [TT|[? TT]]; discriminate.
Qed.

Lemma bin_words_empty isize : 1 <= isize -> bin_words isize [] 0 = repeat 0 (Z.to_nat isize).
Proof.
  intros H. unfold bin_words. cbn [encs flat_map app]. change (zlen []) with 0.
  replace (Z.to_nat isize) with (Z.to_nat (isize - 1 - 0) + 1)%nat by lia. rewrite repeat_app. reflexivity.
Qed.

Lemma Dsk_addbin c d own own' ch dang ex h nb :
  Dsk c d own ch dang ex -> wf_cfg c -> 0 <= h < c_maxHash c -> dang h = nb -> 100 <= nb ->
  (forall x, nb <= x < nb + c_binSize c -> d x = 0 /\ own' x = TBin h (length (ch h))) ->
  (forall x, critical own ex x -> own' x = own x) ->
  Dsk c d own' (addb ch h (nb, [])) (updz dang h 0) ex.
Proof.
  intros HD WF Hh HG Hnb HZ HO. destruct (Dsk_ext c d d own own' ch dang ex HD (fun _ _ => eq_refl) HO) as [DH DB DR].
  destruct WF as (_ & _ & WS & _).
  assert (NA : forall h' j, (j <= length (ch h'))%nat -> h' = h \/ (j < length (ch h'))%nat \/ True ->
     nth j (map fst (addb ch h (nb, []) h')) (updz dang h 0 h') = nth j (map fst (ch h')) (dang h')).
  { intros h' j Hj _. unfold addb, updz. destruct (h' =? h) eqn:E; [|reflexivity]. bz. subst h'.
    rewrite map_app. cbn [map fst]. destruct (Nat.eq_dec j (length (ch h))) as [->|].
    - rewrite app_nth2 by (rewrite maplen; lia). rewrite maplen, Nat.sub_diag. cbn [nth].
      rewrite nth_overflow by (rewrite maplen; lia). congruence.
    - rewrite app_nth1 by (rewrite maplen; lia). apply nth_indep. rewrite maplen. lia. }
  split.
  - intros h' Hh'. destruct (DH h' Hh') as [E1 E2]. split; [assumption|]. rewrite E2, !head_addr_nth, NA by (auto; lia). reflexivity.
  - intros h' i a es Hh' Hi. rewrite addb_at in Hi.
    destruct ((h' =? h) && (i =? length (ch h))%nat) eqn:E.
    + apply andb_prop in E. destruct E as [E1 E2]. bz. apply Nat.eqb_eq in E2. subst h' i. inversion Hi; subst a es.
      split; [assumption|]. split; [intros x Hx; apply HZ, Hx|]. split; [|split; [unfold zlen; cbn; lia|constructor]].
      rewrite next_addr_nth. unfold addb, updz. rewrite Z.eqb_refl.
      rewrite nth_overflow by (rewrite maplen, app_length; cbn; lia). rewrite bin_words_empty by lia.
      apply words_of_nth; [rewrite repeat_length; lia|]. intros k Hk. rewrite nth_repeat. apply HZ. lia.
    + destruct (DB h' i a es Hh' Hi) as (B1 & B2 & B3 & B4 & B5). split; [assumption|]. split; [assumption|]. split; [|auto].
      rewrite B3, !next_addr_nth, NA; auto. apply nth_error_lt in Hi. lia.
  - intros h' i k e Hh' He Hs Hex. rewrite entry_addb in He. apply DR; assumption.
Qed.
