(** * C28: a record answers to all its names. *)
From Coq Require Import ZArith List Lia Bool.
From Verif Require Import Base PackModel HashModel FileModel FileLemmas FileSpec AliasModel AliasSpec AliasProofs AliasLook AliasIns AliasLinks AliasHist AliasDel.
Import ListNotations.
Open Scope Z_scope.

Lemma new_inv c W : Inv c W new_dir empty_book.
Proof.
  split; [|split].
  - constructor; cbn.
    + lia.
    + intros a H. congruence.
    + intros t a [].
    + intros t. constructor.
    + intros t a a' e e' [].
    + intros t l1 a l2 e x e' H. destruct l1; discriminate.
  - exists (fun _ => []). constructor; cbn.
    + discriminate.
    + intros a e [[] _].
    + intros a e [[] _].
    + intros q a [].
    + reflexivity.
    + intros a e [[] _].
    + constructor.
    + intros x q [].
  - discriminate.
Qed.
Lemma every_call c W o s b : apermitted W b o -> Inv c W s b -> good c W o s b.
Proof.
  intros HP HI. destruct o; cbn in HP.
  - apply o_write; tauto.
  - apply o_read, HI.
  - apply o_delete; [apply HP|exact HI].
  - apply o_add; tauto.
  - apply o_remove, HI.
  - apply o_remove_all, HI.
  - apply o_number, HI.
  - apply o_list, HI.
  - apply o_primary, HI.
  - apply o_check, HI.
  - apply o_reopen, HI.
Qed.
Lemma conforms_inv c W : forall ops s b, Inv c W s b -> aconforms c W ops s b.
Proof.
  induction ops as [|o t IH]; intros s b HI; cbn [aconforms]; [exact I|]. intros HP. destruct (every_call c W o s b HP HI) as (r & s' & b' & H1 & H2 & H3). exists r, s', b'. auto.
Qed.

(** Every history of permitted calls on a new file is answered as the specification says. *)
Theorem C28_history_partial : forall c W ops, aconforms c W ops new_dir empty_book.
Proof. intros c W ops. apply conforms_inv, new_inv. Qed.
Print Assumptions C28_history_partial.

(** ** The same in terms of single calls *)

(** The book after a call with a given answer; the specification leaves no choice. *)
Definition after (b : book) (o : aop) (r : aresp) : book :=
  match o, r with
  | AWrite p t d, ADone => match record_of b (canon p) with Some _ => clean (put_rec (resolve b (canon p)) (Some (t, d)) b) | None => put_rec (canon p) (Some (t, d)) b end
  | AWrite p _ _, _ => match record_of b (canon p) with Some _ => clean b | None => b end
  | ARead _, AData _ | ANumber _, ACount _ | AList _, ANames _ => clean b
  | ADelete p, ADone => clean (put_rec (resolve b (canon p)) None (drop_aliases (resolve b (canon p)) b))
  | AAdd p a, ADone => clean (add_alias (canon a) (resolve b (canon p)) b)
  | AAdd p a, _ => match record_of b (canon p) with Some _ => looked (canon a) (clean b) | None => b end
  | ARemove p, ADone => clean (drop_alias (canon p) b)
  | ARemoveAll p, ACount _ => clean (drop_aliases (resolve b (canon p)) b)
  | APrimary p, AName _ | ACheck p, AFound => looked (canon p) b
  | AReopen, _ => clean b
  | _, _ => b
  end.
Lemma astep_after b o r b' : astep b o r b' -> b' = after b o r.
Proof.
  intros H. destruct H; cbn [after]; try reflexivity; try (rewrite H; reflexivity).
  - cbn in H1. destruct H1 as [<-|[<-|[<-|[<-|[<-|[]]]]]]; reflexivity.
  - rewrite H0. reflexivity.
Qed.
(** States reached from a new file by permitted calls, with the book of what was done. *)
Inductive visits (c : dcfg) (W : Z) : ast -> book -> Prop :=
| v_new : visits c W new_dir empty_book
| v_call s b o r s' : visits c W s b -> apermitted W b o -> aexec c o s = Some (r, s') -> visits c W s' (after b o r).
Lemma visits_inv c W s b : visits c W s b -> Inv c W s b.
Proof.
  induction 1 as [|s b o r s' HV IH HP HX]; [apply new_inv|]. destruct (every_call c W o s b HP IH) as (r' & s2 & b' & H1 & H2 & H3). rewrite HX in H1. inversion H1; subst. rewrite <- (astep_after _ _ _ _ H2). exact H3.
Qed.
Lemma visits_step c W s b o : visits c W s b -> apermitted W b o -> exists r s', aexec c o s = Some (r, s') /\ astep b o r (after b o r) /\ visits c W s' (after b o r).
Proof.
  intros HV HP. destruct (every_call c W o s b HP (visits_inv c W s b HV)) as (r & s' & b' & H1 & H2 & H3). exists r, s'. split; [exact H1|]. pose proof (astep_after _ _ _ _ H2). subst b'. split; [exact H2|]. eapply v_call; eauto.
Qed.

Ltac by_answer := try congruence; try reflexivity; try (match goal with H : In _ [_; _; _; _; _] |- _ => exfalso; cbn in H; intuition congruence end).
(** A record is read by every one of its names, with the same content. *)
Theorem C28_read_any_name_partial : forall c W s b p v, visits c W s b -> aname_ok p -> record_of b (canon p) = Some v ->
  exists s', aexec c (ARead p) s = Some (AData v, s').
Proof.
  intros c W s b p v HV HN HR. destruct (visits_step c W s b (ARead p) HV HN) as (r & s' & H1 & H2 & _). exists s'. rewrite H1. inversion H2; subst; by_answer.
Qed.
Print Assumptions C28_read_any_name_partial.

(** A write by one name is read by every other. *)
Theorem C28_write_shared_partial : forall c W s b p t d x v, visits c W s b -> apermitted W b (AWrite p t d) -> aname_ok x ->
  record_of b (canon p) = Some v -> same_family (fst v) t -> resolve b (canon x) = resolve b (canon p) ->
  exists s1 s2, aexec c (AWrite p t d) s = Some (ADone, s1) /\ aexec c (ARead x) s1 = Some (AData (t, d), s2).
Proof.
  intros c W s b p t d x v HV HP HN HR HF HX. destruct v as [t0 d0]. destruct (visits_step c W s b _ HV HP) as (r & s1 & H1 & H2 & H3).
  assert (r = ADone) by (inversion H2; subst; by_answer; exfalso; match goal with H : ~ same_family ?x _ |- _ => apply H; replace x with t0 by congruence; exact HF end). subst r.
  exists s1. cbn [after] in H3. rewrite HR in H3.
  destruct (C28_read_any_name_partial c W s1 _ x (t, d) H3 HN) as (s2 & H4); [|exists s2; auto].
  unfold record_of. change (resolve (clean (put_rec (resolve b (canon p)) (Some (t, d)) b)) (canon x)) with (resolve b (canon x)). rewrite HX. cbn. rewrite same_refl. reflexivity.
Qed.
Print Assumptions C28_write_shared_partial.

(** A new alias: afterwards the record is read by it. *)
Theorem C28_added_alias_reads_partial : forall c W s b p x v, visits c W s b -> apermitted W b (AAdd p x) ->
  record_of b (canon p) = Some v -> record_of b (canon x) = None ->
  exists s1 s2, aexec c (AAdd p x) s = Some (ADone, s1) /\ aexec c (ARead x) s1 = Some (AData v, s2).
Proof.
  intros c W s b p x v HV HP HR HX. destruct (visits_step c W s b _ HV HP) as (r & s1 & H1 & H2 & H3).
  assert (r = ADone) by (inversion H2; subst; by_answer). subst r. exists s1.
  destruct (C28_read_any_name_partial c W s1 _ x v H3) as (s2 & H4); [apply HP| |exists s2; auto].
  cbn [after]. set (q := resolve b (canon p)). assert (PO : primary_of (clean (add_alias (canon x) q b)) (canon x) = Some q) by (unfold primary_of; cbn [clean add_alias aka find fst]; rewrite same_refl; reflexivity).
  unfold record_of, resolve at 1. rewrite PO. exact HR.
Qed.
Print Assumptions C28_added_alias_reads_partial.

(** Deleting by any name removes the record under all its names. *)
Theorem C28_delete_all_names_partial : forall c W s b p x v, visits c W s b -> apermitted W b (ADelete p) -> aname_ok x ->
  record_of b (canon p) = Some v -> resolve b (canon x) = resolve b (canon p) ->
  exists s1 s2, aexec c (ADelete p) s = Some (ADone, s1) /\ aexec c (ARead x) s1 = Some (AMissing, s2).
Proof.
  intros c W s b p x v HV HP HN HR HX. destruct (visits_step c W s b _ HV HP) as (r & s1 & H1 & H2 & H3).
  assert (r = ADone) by (inversion H2; subst; by_answer). subst r. exists s1. cbn [after] in H3. set (b1 := clean _) in H3.
  assert (RN : record_of b1 (canon x) = None).
  { pose proof (visits_inv c W s b HV) as (_ & (ch & LK) & _).
    unfold record_of, resolve. destruct (primary_of b1 (canon x)) as [q'|] eqn:Q.
    - exfalso. pose proof (visits_inv c W s1 b1 H3) as (_ & (ch' & LK') & _). apply (primary_in b1 _ _ (k_ndf _ _ _ _ _ LK')) in Q. unfold b1 in Q. cbn in Q. apply filter_In in Q. destruct Q as [Q1 Q2]. cbn in Q2.
      apply (primary_in b _ _ (k_ndf _ _ _ _ _ LK)) in Q1. unfold resolve at 1 in HX. rewrite Q1 in HX. subst q'. rewrite same_refl in Q2. discriminate.
    - unfold b1. cbn. destruct (same (canon x) (resolve b (canon p))) eqn:Q3; [reflexivity|].
      destruct (primary_of b (canon x)) as [q|] eqn:Q4.
      + apply (primary_in b _ _ (k_ndf _ _ _ _ _ LK)) in Q4. apply (k_apart _ _ _ _ _ LK _ _ Q4).
      + unfold resolve at 1 in HX. rewrite Q4 in HX. apply same_false in Q3. contradiction. }
  destruct (visits_step c W s1 b1 (ARead x) H3 HN) as (r & s2 & G1 & G2 & _). exists s2. split; [exact H1|]. rewrite G1. inversion G2; subst; by_answer; cbn in H; discriminate.
Qed.
Print Assumptions C28_delete_all_names_partial.

(** Removing an alias: that name is gone, every other name of every record reads as before. *)
Theorem C28_remove_one_alias_partial : forall c W s b p q, visits c W s b -> aname_ok p -> primary_of b (canon p) = Some q ->
  exists s1, aexec c (ARemove p) s = Some (ADone, s1) /\
    (exists s2, aexec c (ARead p) s1 = Some (AMissing, s2)) /\
    forall x v, aname_ok x -> canon x <> canon p -> record_of b (canon x) = Some v -> exists s2, aexec c (ARead x) s1 = Some (AData v, s2).
Proof.
  intros c W s b p q HV HN HP. destruct (visits_step c W s b (ARemove p) HV HN) as (r & s1 & H1 & H2 & H3).
  assert (r = ADone) by (inversion H2; subst; by_answer). subst r. exists s1. split; [exact H1|]. cbn [after] in H3. set (b1 := clean _) in H3.
  pose proof (visits_inv c W s b HV) as (_ & (ch & LK) & _). pose proof (visits_inv c W s1 b1 H3) as (_ & (ch' & LK') & _).
  assert (PO : forall k, primary_of b1 k = if same k (canon p) then None else primary_of b k).
  { intros k. destruct (same k (canon p)) eqn:Q.
    - apply same_true in Q. subst k. destruct (primary_of b1 (canon p)) as [q'|] eqn:Q; [|reflexivity]. apply (primary_in b1 _ _ (k_ndf _ _ _ _ _ LK')) in Q. unfold b1 in Q. cbn in Q. apply filter_In in Q. destruct Q as [_ Q]. cbn in Q. rewrite same_refl in Q. discriminate.
    - destruct (primary_of b k) as [q'|] eqn:Q1.
      + apply (primary_in b1 _ _ (k_ndf _ _ _ _ _ LK')). apply (primary_in b _ _ (k_ndf _ _ _ _ _ LK)) in Q1. unfold b1. cbn. apply filter_In. split; [exact Q1|]. cbn. rewrite Q. reflexivity.
      + destruct (primary_of b1 k) as [q'|] eqn:Q2; [|reflexivity]. apply (primary_in b1 _ _ (k_ndf _ _ _ _ _ LK')) in Q2. unfold b1 in Q2. cbn in Q2. apply filter_sub in Q2. apply (primary_in b _ _ (k_ndf _ _ _ _ _ LK)) in Q2. congruence. }
  split.
  - assert (RN : record_of b1 (canon p) = None).
    { unfold record_of, resolve. rewrite PO, same_refl. apply (primary_in b _ _ (k_ndf _ _ _ _ _ LK)) in HP. apply (k_apart _ _ _ _ _ LK _ _ HP). }
    destruct (visits_step c W s1 b1 (ARead p) H3 HN) as (r & s2 & G1 & G2 & _). exists s2. rewrite G1. inversion G2; subst; by_answer; cbn in H; discriminate.
  - intros x v HX NE HR. apply (C28_read_any_name_partial c W s1 b1 x v H3 HX). unfold record_of, resolve. rewrite PO. apply same_false in NE. rewrite NE. exact HR.
Qed.
Print Assumptions C28_remove_one_alias_partial.

(** Number, list and primary name agree: the list is the primary name and then as many names as counted, each of them a name
    of the record. *)
Theorem C28_list_partial : forall c W s b p v, visits c W s b -> aname_ok p -> record_of b (canon p) = Some v ->
  exists l s1 s2 s3 q, aexec c (AList p) s = Some (ANames l, s1) /\ aexec c (ANumber p) s = Some (ACount (Z.of_nat (length l) - 1), s2) /\
    aexec c (APrimary p) s = Some (AName q, s3) /\ option_map canon (hd_error l) = Some (canon q) /\
    NoDup (map canon l) /\ (forall x, In (canon x) (map canon l) <-> resolve b (canon x) = resolve b (canon p)).
Proof.
  intros c W s b p v HV HN HR. pose proof (visits_inv c W s b HV) as (_ & (ch & LK) & _).
  destruct (visits_step c W s b (AList p) HV HN) as (r1 & s1 & H1 & H2 & _).
  destruct (visits_step c W s b (ANumber p) HV HN) as (r2 & s2 & H3 & H4 & _).
  destruct (visits_step c W s b (APrimary p) HV HN) as (r3 & s3 & H5 & H6 & _).
  assert (exists l, r1 = ANames l /\ map canon l = resolve b (canon p) :: aliases b (resolve b (canon p))) as (l & -> & HL) by (inversion H2; subst; by_answer; eauto).
  assert (exists q, r3 = AName q /\ canon q = resolve b (canon p)) as (q & -> & HQ).
  { inversion H6; subst; by_answer; eexists; split; [reflexivity|]; congruence. }
  exists l, s1, s2, s3, q. split; [exact H1|]. split.
  { rewrite H3. inversion H4; subst; by_answer. do 3 f_equal. rewrite <- (map_length canon l), HL. cbn [length]. lia. }
  split; [exact H5|]. split. { destruct l as [|y l]; [discriminate|]. cbn in HL |- *. f_equal. inversion HL. congruence. }
  assert (NP : forall x, In (x, resolve b (canon p)) (aka b) -> x <> resolve b (canon p)).
  { intros x Hx ->. apply (k_apart _ _ _ _ _ LK) in Hx. unfold record_of in HR. congruence. }
  rewrite HL. split.
  - constructor; [|apply map_filter_nodup, (k_ndf _ _ _ _ _ LK)]. intros Q. apply aliases_in in Q. apply (NP _ Q). reflexivity.
  - intros x. cbn [In]. split.
    + intros [Q|Q].
      * unfold resolve at 1. destruct (primary_of b (canon x)) as [q'|] eqn:Q1; [|congruence]. exfalso. apply (primary_in b _ _ (k_ndf _ _ _ _ _ LK)) in Q1. apply (k_apart _ _ _ _ _ LK) in Q1. unfold record_of in HR. congruence.
      * apply aliases_in in Q. apply (primary_in b _ _ (k_ndf _ _ _ _ _ LK)) in Q. unfold resolve at 1. rewrite Q. reflexivity.
    + intros Q. unfold resolve at 1 in Q. destruct (primary_of b (canon x)) as [q'|] eqn:Q1; [|left; congruence]. subst q'. right. apply aliases_in. apply (primary_in b _ _ (k_ndf _ _ _ _ _ LK)). exact Q1.
Qed.
Print Assumptions C28_list_partial.

(** Removing all aliases: the record stays under its own name, its aliases are gone, the names of other records stay. *)
Theorem C28_remove_all_aliases_partial : forall c W s b p v, visits c W s b -> aname_ok p -> record_of b (canon p) = Some v ->
  exists r s1, aexec c (ARemoveAll p) s = Some (r, s1) /\
    (r = ACount (Z.of_nat (length (aliases b (resolve b (canon p))))) \/ (r = AMissing /\ aliases b (resolve b (canon p)) = [])) /\
    (forall x, aname_ok x -> primary_of b (canon x) = Some (resolve b (canon p)) -> exists s2, aexec c (ARead x) s1 = Some (AMissing, s2)) /\
    (forall x w, aname_ok x -> record_of b (canon x) = Some w -> primary_of b (canon x) <> Some (resolve b (canon p)) -> exists s2, aexec c (ARead x) s1 = Some (AData w, s2)).
Proof.
  intros c W s b p v HV HN HR. destruct (visits_step c W s b (ARemoveAll p) HV HN) as (r & s1 & H1 & H2 & H3). exists r, s1. split; [exact H1|].
  pose proof (visits_inv c W s b HV) as (_ & (ch & LK) & _). set (q := resolve b (canon p)) in *. set (b1 := after b (ARemoveAll p) r) in *.
  pose proof (visits_inv c W s1 b1 H3) as (_ & (ch' & LK') & _).
  assert (HB : (forall k, recs b1 k = recs b k) /\ (forall y, In y (aka b1) <-> In y (aka b) /\ snd y <> q) /\ (r = ACount (Z.of_nat (length (aliases b q))) \/ (r = AMissing /\ aliases b q = [])) /\ (r <> AMissing -> stale b1 = false)).
  { clear H1 H3 LK' ch'. clearbody b1. assert (HD : forall y, In y (aka (drop_aliases q b)) <-> In y (aka b) /\ snd y <> q).
    { intros y. cbn. rewrite filter_In, negb_true_iff, same_false. reflexivity. }
    inversion H2; subst; by_answer.
    - fold q. split; [reflexivity|]. split; [exact HD|]. split; [left; reflexivity|reflexivity].
    - split; [reflexivity|]. split; [|split; [right; auto|congruence]]. intros [y z]. split; [|tauto]. intros Hy. split; [exact Hy|]. cbn. intros ->.
      match goal with H : aliases ?bb ?qq = [] |- _ => assert (QI : In y (aliases bb qq)) by (apply aliases_in; exact Hy); rewrite H in QI; contradiction end. }
  destruct HB as (B1 & B2 & B3 & B4). split; [exact B3|].
  assert (PO : forall k q', primary_of b1 k = Some q' <-> primary_of b k = Some q' /\ q' <> q).
  { intros k q'. rewrite (primary_in b1 _ _ (k_ndf _ _ _ _ _ LK')), (primary_in b _ _ (k_ndf _ _ _ _ _ LK)). apply B2. }
  split.
  - intros x HX HP. assert (RN : record_of b1 (canon x) = None).
    { unfold record_of, resolve. destruct (primary_of b1 (canon x)) as [q'|] eqn:Q; [apply PO in Q; destruct Q; congruence|]. rewrite B1. apply (primary_in b _ _ (k_ndf _ _ _ _ _ LK)) in HP. apply (k_apart _ _ _ _ _ LK _ _ HP). }
    assert (ST : stale b1 = false).
    { apply B4. intros ->. destruct B3 as [B3|[_ B3]]; [discriminate|]. apply (primary_in b _ _ (k_ndf _ _ _ _ _ LK)), aliases_in in HP. rewrite B3 in HP. contradiction. }
    destruct (visits_step c W s1 b1 (ARead x) H3 HX) as (r' & s2 & G1 & G2 & _). exists s2. rewrite G1. inversion G2; subst; by_answer.
  - intros x w HX HW HP. apply (C28_read_any_name_partial c W s1 b1 x w H3 HX). unfold record_of, resolve in HW |- *. rewrite B1.
    destruct (primary_of b (canon x)) as [q'|] eqn:Q.
    + assert (Q1 : primary_of b1 (canon x) = Some q') by (apply PO; split; congruence). rewrite Q1. exact HW.
    + destruct (primary_of b1 (canon x)) as [q'|] eqn:Q1; [apply PO in Q1; destruct Q1; congruence|exact HW].
Qed.
Print Assumptions C28_remove_all_aliases_partial.
