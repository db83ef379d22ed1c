(** * The allocator keeps its invariant (AllocModel.v). *)
From Coq Require Import ZArith List Bool Lia Permutation ZifyBool.
From Verif Require Import Base AllocModel AllocProofs.
Import ListNotations.
Open Scope Z_scope.

Lemma Inv_eq s s' live cs ds : (forall x, f_mem s' x = f_mem s x) -> f_size s' = f_size s -> f_table s' = f_table s ->
  0 <= f_segno s' <= 20 -> (f_avail s' = 0 \/ In (f_avail s') (cs ++ ds)) -> Inv s live cs ds -> Inv s' live cs ds.
Proof.
  intros M E1 E2 E3 E4 [].
  assert (F : free (f_mem s') cs = free (f_mem s) cs) by (apply free_ext; auto).
  constructor; unfold regions; rewrite ?F, ?E1, ?E2; auto.
  eapply chain_ext; [|exact i_chain]. auto.
Qed.

Lemma table_size s live cs ds : Inv s live cs ds -> f_table s <= f_size s.
Proof.
  intros I. pose proof (i_chain _ _ _ _ I) as C. destruct cs as [|c cs]; cbn in C.
  - pose proof (i_table _ _ _ _ I). unfold kreclaimSize in *. lia.
  - destruct C as (-> & _). destruct (seg_in _ _ _ _ c I); [left; auto|]. unfold kreclaimSize in *. lia.
Qed.
Local Arguments entries : simpl never.
(** a new segment at the end of the file, not yet in the chain *)
Lemma inv_newseg s live cs ds : Inv s live cs ds ->
  Inv (write_seg (set_size (f_size s + kreclaimSize) s) (f_size s) (fun _ => 0)) live cs (f_size s :: ds).
Proof.
  intros I. set (s' := write_seg _ _ _).
  assert (W : forall c j, In c cs -> 0 <= j < kreclaimSize -> f_mem s' (c + j) = f_mem s (c + j)).
  { intros c j C J. unfold s'. rewrite write_mem. destruct (seg_in _ _ _ _ c I); [apply in_or_app; auto|]. replace (_ && _) with false by lia. reflexivity. }
  assert (F : free (f_mem s') cs = free (f_mem s) cs) by (apply free_ext; auto).
  assert (P : Permutation (live ++ free (f_mem s) cs ++ map seg (cs ++ f_size s :: ds)) (seg (f_size s) :: regions s live cs ds)).
  { unfold regions. rewrite !map_app. cbn. rewrite !app_assoc. apply Permutation_sym, Permutation_middle. }
  pose proof (i_in _ _ _ _ I) as IN.
  pose proof (table_size _ _ _ _ I) as T.
  destruct I. constructor; cbn [f_table f_size f_segno f_avail s' write_seg set_mem set_size]; auto.
  - eapply chain_ext; eauto.
  - destruct i_avail; auto. right. rewrite in_app_iff in *. cbn. tauto.
  - unfold regions. rewrite F. eapply PW_perm; [apply Permutation_sym, P|]. apply PW_cons. split; auto.
    intros q Q. rewrite Forall_forall in IN. destruct (IN q Q) as (A & B & C). right. right. right. cbn. lia.
  - unfold regions. rewrite F. eapply Permutation_Forall; [apply Permutation_sym, P|]. constructor.
    + unfold region_ok, seg. cbn. unfold kreclaimSize. lia.
    + eapply Forall_impl; [|exact IN]. intros r (A & B & C). unfold region_ok, kreclaimSize. lia.
  - rewrite F. auto.
Qed.

Definition create (s : fs) (a : arr) : fs :=
  let new := f_size s in
  let s := set_size (f_size s + kreclaimSize) s in
  let s := zreclaimWrite s a in
  let s := set_used (f_used s + 1) s in
  let s := write_seg s new (fun _ => 0) in
  set_seg new (f_segno s) s.

Lemma create_mem s live cs ds a : Inv s live cs ds -> forall x,
  f_mem (create s a) x = f_mem (write_seg (write_seg (set_size (f_size s + kreclaimSize) s) (f_size s) (fun _ => 0)) (f_avail s) a) x.
Proof.
  intros I x. unfold create, zreclaimWrite. cbn [f_mem set_seg set_used]. rewrite !write_mem. cbn [f_mem set_used set_size f_avail].
  rewrite !write_mem. cbn [f_mem set_size].
  destruct ((f_size s <=? x) && _) eqn:E; [|reflexivity].
  assert (NA : (f_avail s <=? x) && (x <? f_avail s + kreclaimSize) = false).
  { destruct (i_avail _ _ _ _ I) as [->|A].
    - pose proof (table_size _ _ _ _ I). pose proof (i_table _ _ _ _ I). lia.
    - destruct (seg_in _ _ _ _ _ I A). lia. }
  rewrite NA. reflexivity.
Qed.

Lemma link_const : forall a v j, 0 <= j < kreclaimSize - 2 -> upd a iaddLoc v j = a j.
Proof. intros. unfold upd, iaddLoc, kreclaimSize in *. rewrite (proj2 (Z.eqb_neq _ _)) by lia. reflexivity. Qed.

(** the written segment is not in the chain *)
Lemma create_off s live cs ds a : Inv s live cs ds -> (f_avail s = 0 \/ In (f_avail s) ds) ->
  Inv (create s a) live cs (f_size s :: ds) /\ f_mem (create s a) (f_size s + iaddLoc) = 0.
Proof.
  intros I A. pose proof (inv_newseg _ _ _ _ I) as I1.
  assert (A' : f_avail s = 0 \/ In (f_avail s) (f_size s :: ds)) by (cbn; tauto).
  pose proof (inv_offchain _ _ _ _ _ a I1 A') as I2. split.
  - eapply Inv_eq; [exact (create_mem _ _ _ _ a I)|reflexivity|reflexivity|exact (i_segno _ _ _ _ I)| |exact I2].
    right. cbn. apply in_or_app. cbn. auto.
  - unfold create. cbn [f_mem set_seg]. rewrite write_mem. unfold iaddLoc, kreclaimSize. replace (_ && _) with true by lia. reflexivity.
Qed.

(** the written segment is in the chain *)
Lemma create_on s live l1 p l2 ds L pre : Inv s live (l1 ++ p :: l2) ds -> f_avail s = p -> l1 ++ p :: l2 = pre ++ [L] ->
  (List.length l1 <= 18)%nat ->
  Inv (create s (upd (read_seg s L) iaddLoc (f_size s))) live (l1 ++ [p; f_size s]) (l2 ++ ds).
Proof.
  intros I A E LEN. set (new := f_size s). set (a := upd _ _ _). pose proof (inv_newseg _ _ _ _ I) as I1.
  set (s1 := write_seg _ _ _) in I1. set (s2 := write_seg s1 p a).
  assert (Pin : In p ((l1 ++ p :: l2) ++ ds)) by (rewrite !in_app_iff; cbn; auto).
  destruct (seg_in _ _ _ _ _ I Pin) as [P1 P2].
  pose proof (cs_nodup _ _ _ _ I1) as N. rewrite <- app_assoc in N. cbn in N.
  assert (W : forall c j, In c l1 \/ In c l2 \/ c = new -> 0 <= j < kreclaimSize -> f_mem s2 (c + j) = f_mem s1 (c + j)).
  { intros c j C J. apply (write_other _ _ _ _ p a I1); auto.
    - right. rewrite !in_app_iff. cbn. auto.
    - rewrite !in_app_iff. cbn. fold new. intuition.
    - intros ->. apply NoDup_remove_2 in N. apply N. rewrite !in_app_iff. cbn. fold new. intuition. }
  assert (W1 : forall c j, In c (l1 ++ p :: l2) -> 0 <= j < kreclaimSize -> f_mem s1 (c + j) = f_mem s (c + j)).
  { intros c j C J. unfold s1. rewrite write_mem. destruct (seg_in _ _ _ _ c I); [apply in_or_app; auto|]. replace (_ && _) with false by lia. reflexivity. }
  assert (EN : entries (fun j => f_mem s2 (new + j)) = []).
  { rewrite <- entries_zero. apply entries_ext. intros j J. rewrite W by lia. unfold s1. rewrite write_mem. fold new. replace (_ && _) with true by lia. reflexivity. }
  assert (EP : entries (fun j => f_mem s2 (p + j)) = entries (read_seg s L)).
  { apply entries_ext. intros j J. unfold s2. rewrite write_mem. replace (_ && _) with true by lia. unfold a.
    replace (p + j - p) with j by lia. apply link_const. lia. }
  assert (F : free (f_mem s2) (l1 ++ [p; new]) = free (f_mem s) l1 ++ entries (read_seg s L)).
  { rewrite free_app. f_equal.
    - apply free_ext. intros c j C J. rewrite W by auto. apply W1; auto. apply in_or_app; auto.
    - unfold free; cbn [flat_map]. rewrite EP, EN, !app_nil_r. reflexivity. }
  assert (FP : part (free (f_mem s) l1 ++ entries (read_seg s L)) (free (f_mem s) (l1 ++ p :: l2))).
  { rewrite free_app. unfold part. destruct (list_eq_dec Z.eq_dec l2 []) as [->|NE].
    - apply app_inj_tail in E. destruct E as [<- ->]. exists []. cbn. rewrite !app_nil_r. apply Permutation_refl.
    - destruct (exists_last NE) as (l2' & L' & ->). assert (EL : L' = L).
      { change (l1 ++ p :: l2' ++ [L']) with (l1 ++ (p :: l2') ++ [L']) in E. rewrite app_assoc in E. apply app_inj_tail in E. tauto. }
      subst L'. exists (entries (read_seg s p) ++ free (f_mem s) l2'). rewrite <- app_assoc. apply Permutation_app_head.
      change (p :: l2' ++ [L]) with ((p :: l2') ++ [L]). rewrite free_app. cbn. rewrite app_nil_r.
      apply Permutation_app_comm. }
  assert (PT : part (live ++ (free (f_mem s) l1 ++ entries (read_seg s L)) ++ map seg ((l1 ++ [p; new]) ++ l2 ++ ds)) (regions s1 live (l1 ++ p :: l2) (new :: ds))).
  { destruct FP as [r FP]. exists r. unfold regions. rewrite (free_ext (f_mem s) (f_mem s1)) by auto.
    rewrite <- FP. rewrite <- (app_assoc live). apply Permutation_app_head.
    rewrite <- (app_assoc _ (map _ _) r). rewrite (Permutation_app_comm (map _ _) r). rewrite app_assoc. apply Permutation_app_head. apply Permutation_map.
    rewrite <- !app_assoc. apply Permutation_app_head. cbn. constructor.
    change (new :: l2 ++ ds) with ([new] ++ l2 ++ ds). change (new :: ds) with ([new] ++ ds). rewrite !app_assoc. apply Permutation_app_tail, Permutation_app_comm. }
  assert (I2 : Inv (set_seg new (f_segno s) s2) live (l1 ++ [p; new]) (l2 ++ ds)).
  { pose proof (i_chain _ _ _ _ I) as C. apply chain_app in C. destruct C as (C1 & C2 & C3). destruct I, I1.
    constructor; cbn [f_mem f_table f_segno f_avail f_size set_seg]; auto.
    - change [p; new] with (p :: [new]). apply chain_app. split; [|split; auto].
      + apply (leads_ext (f_mem s)); auto. intros c j C J. rewrite W by auto. apply W1; auto. apply in_or_app; auto.
      + assert (LK : f_mem s2 (p + iaddLoc) = new).
        { unfold s2. rewrite write_mem. unfold iaddLoc, kreclaimSize in *. replace (_ && _) with true by lia. unfold a, upd.
          rewrite (proj2 (Z.eqb_eq _ _)) by (unfold iaddLoc, kreclaimSize; lia). reflexivity. }
        cbn [chain]. rewrite LK. repeat split; [|].
        * unfold new. pose proof i_table. unfold kreclaimSize in *. lia.
        * rewrite W by (auto; unfold iaddLoc, kreclaimSize; lia). unfold s1. rewrite write_mem. fold new. unfold iaddLoc, kreclaimSize. replace (_ && _) with true by lia. reflexivity.
    - rewrite app_length. cbn. lia.
    - right. rewrite !in_app_iff. cbn. auto.
    - unfold regions. cbn [f_mem set_seg]. rewrite F. eapply PW_part; eauto.
    - unfold regions. cbn [f_mem set_seg]. rewrite F. eapply Forall_part; eauto.
    - rewrite F. eapply Forall_part; [|exact i_free]. exact FP. }
  apply (Inv_eq (set_seg new (f_segno s) s2)); [|reflexivity|reflexivity|exact (i_segno _ _ _ _ I2)|exact (i_avail _ _ _ _ I2)|exact I2].
  intros x. rewrite (create_mem _ _ _ _ a I). rewrite A. reflexivity.
Qed.

Lemma create_ext s live cs ds a ss : Inv s live cs ds -> (forall c, In c ss <-> In c (cs ++ ds) \/ c = f_size s) ->
  Ext s (cs ++ ds) (create s a) ss.
Proof.
  intros I SS. pose proof (i_table _ _ _ _ I). repeat split.
  - cbn. unfold kreclaimSize. lia.
  - intros x X C. rewrite (create_mem _ _ _ _ a I). rewrite write_mem. destruct (i_avail _ _ _ _ I) as [->|A].
    + replace (_ && _) with false by lia. rewrite write_mem. replace (_ && _) with false by lia. reflexivity.
    + specialize (C _ A). replace (_ && _) with false by lia. rewrite write_mem. replace (_ && _) with false by lia. reflexivity.
  - intros c I'. apply SS in I'. destruct I' as [I'|I']; [auto|right; lia].
Qed.

Lemma walk_spec inumber n : inumber < 20 -> forall s live cs ds i address a,
  Inv s live cs ds -> (n > 0)%nat -> Z.of_nat n = inumber + 1 - i -> 0 <= i ->
  ((exists l1 l2, cs = l1 ++ address :: l2 /\ Z.of_nat (List.length l1) <= i) \/
   (In address ds /\ f_avail s = address /\ f_mem s (address + iaddLoc) = 0)) ->
  exists s' adr cs' ds', walk_release n s i inumber address a = (s', adr, read_seg s' adr) /\
    Inv s' live cs' ds' /\ In adr (cs' ++ ds') /\ Ext s (cs ++ ds) s' (cs' ++ ds').
Proof.
  intros HI. induction n as [|n IH]; intros s live cs ds i address a I N0 NI I0 C; [lia|].
  assert (Cin : In address (cs ++ ds)).
  { destruct C as [(l1 & l2 & -> & _)|[C _]]; rewrite !in_app_iff; cbn; auto. }
  destruct (seg_in _ _ _ _ _ I Cin) as [A1 A2]. pose proof (i_table _ _ _ _ I) as T. unfold kreclaimSize in A2, T.
  cbn [walk_release]. destruct (Z.ltb_spec i inumber) as [Li|Li].
  - change (read_seg s address iaddLoc) with (f_mem s (address + iaddLoc)).
    destruct (Z.eqb_spec (f_mem s (address + iaddLoc)) 0) as [E0|E0].
    + (* a new segment *)
      set (a' := upd (read_seg s address) iaddLoc (f_size s)).
      change (exists s' adr cs' ds', walk_release n (create s a') (i + 1) inumber (f_size s) a' = (s', adr, read_seg s' adr) /\
         Inv s' live cs' ds' /\ In adr (cs' ++ ds') /\ Ext s (cs ++ ds) s' (cs' ++ ds')).
      assert (D : (f_avail s = 0 \/ In (f_avail s) ds) \/ (In (f_avail s) cs /\ exists l1, cs = l1 ++ [address] /\ Z.of_nat (List.length l1) <= i)).
      { destruct C as [(l1 & l2 & E & Ll)|(C1 & C2 & _)].
        - destruct (i_avail _ _ _ _ I) as [|A]; [auto|]. apply in_app_iff in A. destruct A as [A|A]; [|auto]. right. split; auto.
          exists l1. split; auto. subst cs. f_equal. pose proof (i_chain _ _ _ _ I) as CH. apply chain_app in CH. destruct CH as (_ & _ & CH).
          rewrite E0 in CH. destruct l2 as [|d l2]; [reflexivity|]. cbn in CH. destruct CH as (<- & CH & _). congruence.
        - left. right. rewrite C2. exact C1. }
      destruct D as [D|(D & pre & E & Ll)].
      * destruct (create_off _ _ _ _ a' I D) as [I1 L1].
        destruct (IH (create s a') live cs (f_size s :: ds) (i + 1) (f_size s) a') as (s' & adr & cs' & ds' & R1 & R2 & R3 & R4); auto; [lia|lia|lia| |].
        { right. repeat split; auto. left; auto. }
        exists s', adr, cs', ds'. split; [exact R1|split; [exact R2|split; [exact R3|]]]. eapply Ext_trans; [|exact R4].
        eapply create_ext; eauto. intros c. rewrite !in_app_iff. cbn. intuition.
      * apply in_split in D. destruct D as (l1 & l2 & E').
        assert (LE : (List.length l1 <= List.length pre)%nat).
        { rewrite E' in E. apply (f_equal (@List.length Z)) in E. rewrite !app_length in E. cbn in E. lia. }
        rewrite E' in I, E.
        assert (I1 : Inv (create s a') live (l1 ++ [f_avail s; f_size s]) (l2 ++ ds)) by (eapply create_on; eauto; lia).
        destruct (IH (create s a') live (l1 ++ [f_avail s; f_size s]) (l2 ++ ds) (i + 1) (f_size s) a') as (s' & adr & cs' & ds' & R1 & R2 & R3 & R4); auto; [lia|lia|lia| |].
        { left. exists (l1 ++ [f_avail s]), []. split; [rewrite <- app_assoc; reflexivity|]. rewrite app_length. cbn. lia. }
        exists s', adr, cs', ds'. split; [exact R1|split; [exact R2|split; [exact R3|]]]. eapply Ext_trans; [|exact R4].
        rewrite E'. eapply create_ext; eauto. intros c. rewrite !in_app_iff. cbn. intuition.
    + destruct C as [(l1 & l2 & -> & Ll)|(_ & _ & C)]; [|contradiction].
      pose proof (i_chain _ _ _ _ I) as CH. apply chain_app in CH. destruct CH as (_ & _ & CH).
      destruct l2 as [|d l2]; cbn [chain] in CH; [contradiction|]. destruct CH as (-> & _ & _).
      apply IH; auto; [lia|lia|lia|]. left. exists (l1 ++ [address]), l2. split; [rewrite <- app_assoc; reflexivity|]. rewrite app_length. cbn. lia.
  - assert (n = O) by lia. subst n. cbn. rewrite (proj2 (Z.eqb_neq address 0)) by lia.
    exists s, address, cs, ds. split; [reflexivity|split; [exact I|split; [exact Cin|apply Ext_refl]]].
Qed.
