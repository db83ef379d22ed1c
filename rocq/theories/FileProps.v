(** * Properties C22, C24, C25, C29, C36: a DSS file as a map from names to records, for every history. *)
From Coq Require Import ZArith List Lia Bool.
From Verif Require Import Base PackModel PackProps HashModel FileModel FileLemmas FileScan FileInv FileDir FileLook FileRead FileAlloc FileBin FileSlot FileUpd FileStep FileWrite FileExist FileOps FileDel FileRen FileCount FileCat FileSpec FileHist FileHistSpec.
Import ListNotations.
Open Scope Z_scope.

Lemma usable_wf c : usable c -> wf_cfg c /\ c_hashStart c + c_maxHash c <= c_firstBin c.
Proof.
  intros (hs & mh & bs & bpb & d & g & -> & H1 & H2 & H3 & H4 & H5). split; [apply wf_new; assumption|]. cbn. lia.
Qed.
Lemma usable_inv c W : usable c -> Inv c W (new_file c) empty_file.
Proof. intros U. destruct (usable_wf c U). apply inv_new; assumption. Qed.

Section R.
Variables (c : cfg) (W : Z).
Hypothesis U : usable c.
Let WF : wf_cfg c := proj1 (usable_wf c U).

Lemma inv_reads s f p : Inv c W s f -> name_ok p -> reads c s p (records f (canon p)).
Proof.
  intros IV HP. destruct (out_read c W s f WF IV p HP) as (r & s' & EX & _ & f' & ST & _). inversion ST; subst. exists s'. exact EX.
Qed.
Lemma reads_fun s p v v' : reads c s p v -> reads c s p v' -> v = v'.
Proof. intros [s1 H1] [s2 H2]. congruence. Qed.
Lemma inv_reads_iff s f p v : Inv c W s f -> name_ok p -> (reads c s p v <-> v = records f (canon p)).
Proof.
  intros IV HP. split; [|intros ->; apply inv_reads; assumption]. intros H. eapply reads_fun; [exact H|]. apply inv_reads; assumption.
Qed.
Lemma allowed_permitted s f o : Inv c W s f -> allowed c W s o -> permitted W f o.
Proof.
  intros IV. destruct o as [now prog x|p|p|p|old new| |]; cbn [allowed permitted]; auto.
  - intros (H1 & H2 & H3). split; [exact H1|]. split; [exact H2|]. intros ct Q. apply H3. apply (inv_reads_iff s f); [exact IV|apply H1|congruence].
  - intros [H1 H2]. split; [exact H1|]. symmetry. eapply inv_reads_iff; eauto.
  - intros (H1 & H2 & H3 & H4 & H5 & H6). repeat (split; [assumption|]). intros Q. apply H6. intros R. apply Q. symmetry. eapply inv_reads_iff; eauto.
Qed.
Lemma step_ok s f o : Inv c W s f -> allowed c W s o -> exists r s', outcome c W s f o r s'.
Proof. intros IV HA. apply out_all; auto. eapply allowed_permitted; eauto. Qed.
Lemma step_fun s f o r s' : Inv c W s f -> allowed c W s o -> exec c o s = Some (r, s') ->
  outcome c W s f o r s'.
Proof. intros IV HA EX. destruct (step_ok s f o IV HA) as (r1 & s1 & O). assert (exec c o s = Some (r1, s1)) by apply O. rewrite EX in H. inversion H; subst. exact O. Qed.

(** The abstract file after a run. *)
Inductive mapped : file -> list op -> file -> Prop :=
| mapped_nil f : mapped f [] f
| mapped_cons f o r f1 t f2 : step f o r f1 -> mapped f1 t f2 -> mapped f (o :: t) f2.
Lemma runs_inv s ops s' : runs c W s ops s' -> forall f, Inv c W s f -> exists f', mapped f ops f' /\ Inv c W s' f'.
Proof.
  induction 1 as [s|s o r s1 t s2 HA EX HR IH]; intros f IV; [exists f; split; [constructor|assumption]|].
  destruct (step_fun s f o r s1 IV HA EX) as (_ & _ & f1 & ST & IV1). destruct (IH f1 IV1) as (f2 & M & IV2).
  exists f2. split; [econstructor; eauto|exact IV2].
Qed.
Lemma runs_new ops s : runs c W (new_file c) ops s -> exists f, mapped empty_file ops f /\ Inv c W s f.
Proof. intros H. apply (runs_inv _ _ _ H), usable_inv, U. Qed.
Lemma runs_app s a s1 b s2 : runs c W s a s1 -> runs c W s1 b s2 -> runs c W s (a ++ b) s2.
Proof. induction 1; cbn [app]; [auto|]. intros. econstructor; eauto. Qed.

Lemma step_frame f o r f' q : step f o r f' -> ~ In q (names_of o) -> records f' q = records f q.
Proof.
  intros ST HN. inversion ST; subst; cbn [names_of records In] in *; try reflexivity; rewrite ?set_other by (intros E; apply HN; subst; auto); reflexivity.
Qed.
Lemma mapped_frame f ops f' q : mapped f ops f' -> (forall o, In o ops -> ~ In q (names_of o)) -> records f' q = records f q.
Proof.
  induction 1 as [f|f o r f1 t f2 ST M IH]; intros H; [reflexivity|].
  rewrite IH by (intros o' Q; apply H; right; exact Q). eapply step_frame; [exact ST|]. apply H. left. reflexivity.
Qed.

(** ** C22 *)
Theorem C22_history_partial ops : conforms c W ops (new_file c) empty_file.
Proof. apply conforms_inv; [exact WF|]. apply usable_inv, U. Qed.

Theorem C22_always_answers ops s o : runs c W (new_file c) ops s -> allowed c W s o ->
  exists r s', exec c o s = Some (r, s') /\
    (r = Refused <-> exists now prog x ct, o = Write now prog x /\ reads c s (x_path x) (Some ct) /\ ~ same_family (ct_type ct) (x_type x)).
Proof.
  intros HR HA. destruct (runs_new ops s HR) as (f & _ & IV). destruct (step_ok s f o IV HA) as (r & s' & EX & _ & f' & ST & _).
  exists r, s'. split; [exact EX|]. split.
  - intros ->. inversion ST as [|? ? ? ct HC HF EO ER EF| | | | | | | | |]. rewrite <- EO in *. exists now, prog, x, ct. split; [reflexivity|]. split; [|assumption].
    apply (inv_reads_iff s f); [exact IV| |congruence]. apply HA.
  - intros (now & prog & x & ct & -> & HX & HF). apply (inv_reads_iff s f) in HX; [|exact IV|apply HA]. inversion ST as [? ? ? HC| | | | | | | | | |]; [|reflexivity].
    exfalso. apply HF. auto.
Qed.

Theorem C22_read_last_write_partial ops1 s1 now prog x s2 ops2 s3 q :
  runs c W (new_file c) ops1 s1 -> allowed c W s1 (Write now prog x) -> exec c (Write now prog x) s1 = Some (Done, s2) ->
  runs c W s2 ops2 s3 -> untouched (x_path x) ops2 -> canon q = canon (x_path x) -> name_ok q ->
  reads c s3 q (Some (stored x)).
Proof.
  intros R1 HA EX R2 UT EQ HQ. destruct (runs_new _ _ R1) as (f1 & _ & IV1).
  destruct (step_fun _ _ _ _ _ IV1 HA EX) as (_ & _ & f2 & ST & IV2). destruct (runs_inv _ _ _ R2 f2 IV2) as (f3 & M & IV3).
  apply (inv_reads_iff s3 f3); [exact IV3|exact HQ|]. rewrite EQ. rewrite (mapped_frame _ _ _ _ M UT). inversion ST; subst. cbn [records]. rewrite set_same. reflexivity.
Qed.

Theorem C22_never_written_partial ops s q : runs c W (new_file c) ops s -> untouched q ops -> name_ok q -> reads c s q None.
Proof.
  intros R UT HQ. destruct (runs_new _ _ R) as (f & M & IV). apply (inv_reads_iff s f); [exact IV|exact HQ|].
  rewrite (mapped_frame _ _ _ _ M UT). reflexivity.
Qed.

Theorem C22_others_unchanged_partial ops s o r s' q v : runs c W (new_file c) ops s -> allowed c W s o -> exec c o s = Some (r, s') ->
  ~ In (canon q) (names_of o) -> name_ok q -> (reads c s q v <-> reads c s' q v).
Proof.
  intros R HA EX HN HQ. destruct (runs_new _ _ R) as (f & M & IV). destruct (step_fun _ _ _ _ _ IV HA EX) as (_ & _ & f' & ST & IV').
  rewrite (inv_reads_iff s f), (inv_reads_iff s' f') by assumption. rewrite (step_frame _ _ _ _ _ ST HN). tauto.
Qed.

(** A write of another data type is refused and changes nothing. *)
Theorem C22_refused_write_changes_nothing ops s now prog x s' q v : runs c W (new_file c) ops s -> allowed c W s (Write now prog x) ->
  exec c (Write now prog x) s = Some (Refused, s') -> name_ok q -> (reads c s q v <-> reads c s' q v).
Proof.
  intros R HA EX HQ. destruct (runs_new _ _ R) as (f & M & IV). destruct (step_fun _ _ _ _ _ IV HA EX) as (_ & _ & f' & ST & IV').
  rewrite (inv_reads_iff s f), (inv_reads_iff s' f') by assumption. inversion ST; subst. tauto.
Qed.

(** ** C24 *)
Theorem C24_delete_partial ops s p b s' : runs c W (new_file c) ops s -> allowed c W s (Delete p) -> exec c (Delete p) s = Some (Found b, s') ->
  (b = false <-> reads c s p None) /\
  (forall q, name_ok q -> canon q = canon p -> reads c s' q None) /\
  (forall q v, name_ok q -> canon q <> canon p -> (reads c s q v <-> reads c s' q v)).
Proof.
  intros R HA EX. destruct (runs_new _ _ R) as (f & M & IV). destruct (step_fun _ _ _ _ _ IV HA EX) as (_ & _ & f' & ST & IV').
  assert (HP : name_ok p) by apply HA. split; [|split].
  - rewrite (inv_reads_iff s f) by assumption. inversion ST; subst; split; congruence.
  - intros q HQ E. apply (inv_reads_iff s' f'); [assumption..|]. rewrite E. inversion ST; subst; cbn [records]; [rewrite set_same; reflexivity|congruence].
  - intros q v HQ E. rewrite (inv_reads_iff s f), (inv_reads_iff s' f') by assumption.
    rewrite (step_frame _ _ _ _ (canon q) ST); [tauto|]. cbn [names_of In]. intros [Q|[]]. congruence.
Qed.

(** Undelete only ever brings back a content that was deleted under that very name, and touches nothing else. *)
Inductive was_deleted (q : list Z) (ct : content) : st -> list op -> Prop :=
| wd_here s p s1 t r : canon p = q -> reads c s p (Some ct) -> exec c (Delete p) s = Some (r, s1) -> was_deleted q ct s (Delete p :: t)
| wd_renamed_onto s old new s1 t r : canon new = q -> reads c s new (Some ct) -> exec c (Rename old new) s = Some (r, s1) ->
    was_deleted q ct s (Rename old new :: t)
| wd_later s o r s1 t : exec c o s = Some (r, s1) -> was_deleted q ct s1 t -> was_deleted q ct s (o :: t).
Lemma runs_trash s ops s' : runs c W s ops s' -> forall f, Inv c W s f ->
  exists f', Inv c W s' f' /\ forall q ct, trash f' q ct -> trash f q ct \/ was_deleted q ct s ops.
Proof.
  induction 1 as [s|s o r s1 t s2 HA EX HR IH]; intros f IV; [exists f; auto|].
  destruct (step_fun _ _ _ _ _ IV HA EX) as (_ & _ & f1 & ST & IV1). destruct (IH f1 IV1) as (f2 & IV2 & T).
  exists f2. split; [exact IV2|]. intros q ct Q. destruct (T q ct Q) as [Q1|Q1]; [|right; econstructor; eauto].
  assert (K : trash f q ct \/ (exists p, o = Delete p /\ q = canon p /\ records f q = Some ct) \/
              (exists old new, o = Rename old new /\ q = canon new /\ records f q = Some ct)).
  { inversion ST; subst; cbn [trash] in Q1; auto.
    - destruct Q1 as [Q1|[-> ->]]; [auto|]. right. left. eauto.
    - destruct Q1 as [Q1|[-> Q1]]; [auto|]. right. right. eauto.
    - destruct Q1 as [Q1|[-> Q1]]; [auto|]. right. right. eauto. }
  destruct K as [K|[(p & -> & -> & K)|(old & new & -> & -> & K)]]; [auto|right|right].
  - eapply wd_here; [reflexivity| |exact EX]. apply (inv_reads_iff s f); [exact IV|apply HA|congruence].
  - eapply wd_renamed_onto; [reflexivity| |exact EX]. apply (inv_reads_iff s f); [exact IV|apply HA|congruence].
Qed.

Theorem C24_undelete_partial ops s p b s' : runs c W (new_file c) ops s -> allowed c W s (Undelete p) -> exec c (Undelete p) s = Some (Found b, s') ->
  (if b then exists ct, was_deleted (canon p) ct (new_file c) ops /\ forall q, name_ok q -> canon q = canon p -> reads c s' q (Some ct)
   else reads c s' p None) /\
  (forall q v, name_ok q -> canon q <> canon p -> (reads c s q v <-> reads c s' q v)).
Proof.
  intros R HA EX. destruct (runs_trash _ _ _ R empty_file (usable_inv c W U)) as (f & IV & T).
  destruct (step_fun _ _ _ _ _ IV HA EX) as (_ & _ & f' & ST & IV'). pose proof (allowed_permitted _ _ _ IV HA) as [HP HN]. split.
  - destruct b.
    + inversion ST as [| | | | |? ct H1 H2| | | | |]; subst. exists ct. split; [destruct (T _ _ H2) as [[]|Q]; exact Q|].
      intros q HQ E. eapply inv_reads_iff; [exact IV'|exact HQ|]. rewrite E. cbn [records]. rewrite set_same. reflexivity.
    + eapply inv_reads_iff; [exact IV'|exact HP|]. inversion ST; subst; congruence.
  - intros q v HQ E. rewrite (inv_reads_iff s f), (inv_reads_iff s' f') by assumption.
    rewrite (step_frame _ _ _ _ (canon q) ST); [tauto|]. cbn [names_of In]. intros [Q|[]]. congruence.
Qed.

(** Delete, then anything that only looks at the file, then undelete: the record is back, exactly. *)
Definition InvD (s : st) (f : file) (p : list Z) (ct : content) : Prop :=
  Inv c W s f /\ exists own ch blocks, Rep c s own ch blocks /\ (forall p ct, Live c ch p ct <-> records f (key p) = Some ct) /\ FirstDead c ch p ct.
Lemma invD_same s s' f p ct : same_file s s' -> InvD s f p ct -> InvD s' f p ct.
Proof.
  intros SF [IV (own & ch & blocks & RP & R)]. split; [eapply same_file_inv; eauto|]. exists own, ch, blocks. split; [|exact R].
  destruct SF as (E1 & E2 & E3 & E4). destruct RP. split; rewrite ?E1, ?E2, ?E4; auto.
Qed.
Lemma invD_reopen s f p ct : InvD s f p ct -> InvD (reopen s) f p ct.
Proof.
  intros [IV (own & ch & blocks & RP & R)]. split; [apply inv_reopen; exact IV|]. exists own, ch, blocks. split; [|exact R].
  pose proof (rp_hdr _ _ _ _ _ RP) as E. destruct RP. split; cbn [reopen s_disk s_hdr s_dhdr]; rewrite ?E; auto.
Qed.
Lemma read_same s f p r s' : Inv c W s f -> name_ok p -> exec c (Read p) s = Some (r, s') -> same_file s s'.
Proof.
  intros IV (N1 & N2 & N3)%name_ok_parts EX. destruct IV as [(own & ch & blocks & RP & LV & DD) I2 I3]. cbn [exec] in EX.
  destruct (live_or_not f p) as [[ct HL]|HN].
  - destruct (rep_read c s own ch blocks p ct WF RP N1) as (s1 & E & SF); [apply LV, HL|]. rewrite E in EX. congruence.
  - destruct (rep_read_none c s own ch blocks p WF RP N1 N3) as (s1 & E & SF); [intros ct Q; apply LV in Q; congruence|]. rewrite E in EX. congruence.
Qed.
Lemma cat_same s f r s' : Inv c W s f -> exec c Catalogue s = Some (r, s') -> s' = s.
Proof.
  intros IV EX. destruct IV as [(own & ch & blocks & RP & LV & DD & DM & DL) I2 I3]. destruct I3 as (ks & K1 & K2 & K3).
  destruct (rep_catalog c s own ch blocks WF RP I2) as (vl & E & _).
  { eapply dead_le_nonneg; eauto. }
  { exists ks. split; [|lia]. intros p ct Q. apply LV in Q. apply K2. congruence. }
  cbn [exec] in EX. rewrite E in EX. congruence.
Qed.
Lemma invD_run s ops s' : runs c W s ops s' -> Forall read_only ops -> forall f p ct, InvD s f p ct -> InvD s' f p ct.
Proof.
  induction 1 as [s|s o r s1 t s2 HA EX HR IH]; intros HF f p ct ID; [exact ID|]. inversion HF as [|? ? HO HF']; subst. apply IH; [exact HF'|].
  destruct o as [now prog x|q|q|q|old new| |]; cbn [read_only] in HO; try contradiction.
  - eapply invD_same; [|exact ID]. eapply read_same; [apply ID|exact HA|exact EX].
  - apply (cat_same s f) in EX; [|apply ID]. subst s1. exact ID.
  - cbn [exec] in EX. assert (s1 = reopen s) by congruence. subst s1. apply invD_reopen, ID.
Qed.
Lemma delete_invD s f p ct s' : Inv c W s f -> allowed c W s (Delete p) -> records f (canon p) = Some ct -> exec c (Delete p) s = Some (Found true, s') ->
  exists f', InvD s' f' p ct /\ records f' (canon p) = None.
Proof.
  intros IV HA HR EX. destruct (step_fun _ _ _ _ _ IV HA EX) as (_ & _ & f' & ST & IV'). exists f'.
  assert (E : forall q, records f' q = if list_eq_dec Z.eq_dec q (canon p) then None else records f q) by (inversion ST; subst; reflexivity).
  split; [|rewrite E; destruct (list_eq_dec Z.eq_dec (canon p) (canon p)); [reflexivity|congruence]]. split; [exact IV'|].
  destruct HA as [HP HW]. apply name_ok_parts in HP. destruct HP as (N1 & N2 & N3). destruct IV as [(own & ch & blocks & RP & LV & DD & DM & DL) I2 I3].
  pose proof (run_zdelete c s own ch blocks p WF RP N1 N3) as R. unfold run in R. cbn [exec] in EX.
  destruct (zdeleteInternal c p false s) as [b s1|s1|] eqn:EZ; [|discriminate|discriminate]. inversion EX; subst b s1.
  destruct R as (AP & HB & _ & own' & ch' & blocks' & RP' & LV' & DD' & FD & _). exists own', ch', blocks'. split; [exact RP'|]. split.
  - intros q ct'. rewrite LV', E. change (canon p) with (key p). destruct (list_eq_dec Z.eq_dec (key q) (key p)) as [Q|Q]; [split; [tauto|discriminate]|].
    rewrite LV. tauto.
  - apply FD, LV, HR.
Qed.

Theorem C24_undelete_restores ops1 s1 p ct s2 ops2 s3 : runs c W (new_file c) ops1 s1 -> reads c s1 p (Some ct) ->
  allowed c W s1 (Delete p) -> exec c (Delete p) s1 = Some (Found true, s2) -> runs c W s2 ops2 s3 -> Forall read_only ops2 ->
  exists s4, exec c (Undelete p) s3 = Some (Found true, s4) /\
    (forall q, name_ok q -> canon q = canon p -> reads c s4 q (Some ct)) /\
    (forall q v, name_ok q -> canon q <> canon p -> (reads c s1 q v <-> reads c s4 q v)).
Proof.
  intros R1 HR HA EX R2 RO. destruct (runs_new _ _ R1) as (f1 & _ & IV1). assert (HP : name_ok p) by apply HA.
  apply (inv_reads_iff s1 f1) in HR; [|assumption..].
  destruct (delete_invD s1 f1 p ct s2 IV1 HA (eq_sym HR) EX) as (f2 & ID & HN).
  destruct (step_fun _ _ _ _ _ IV1 HA EX) as (_ & _ & f2' & ST & IV2').
  assert (E12 : forall q, name_ok q -> canon q <> canon p -> records f2 (canon q) = records f1 (canon q)).
  { intros q HQ NE. assert (records f2' (canon q) = records f1 (canon q)).
    { eapply step_frame; [exact ST|]. cbn [names_of In]. intros [Q|[]]. congruence. }
    rewrite <- H. assert (reads c s2 q (records f2' (canon q))) by (apply inv_reads; assumption).
    apply (inv_reads_iff s2 f2) in H0; [congruence|apply ID|exact HQ]. }
  pose proof (invD_run _ _ _ R2 RO f2 p ct ID) as [IV3 (own & ch & blocks & RP & LV & FD)].
  apply name_ok_parts in HP as HP'. destruct HP' as (N1 & N2 & N3).
  assert (NL : forall ct, ~ Live c ch p ct) by (intros ct' Q; apply LV in Q; change (canon p) with (key p) in HN; congruence).
  pose proof (run_zundelete c s3 own ch blocks p WF RP N1 NL) as R. unfold run in R.
  destruct (out_undelete c W s3 f2 WF IV3 p HP HN) as (r & s4 & EX4 & _ & f4 & ST4 & IV4). cbn [exec] in EX4.
  destruct (zdeleteInternal c p true s3) as [b s'|s'|] eqn:EZ; [|exfalso; apply R|contradiction].
  destruct R as (_ & HB & own' & ch' & blocks' & RP' & LV' & FD' & _).
  assert (b = true).
  { destruct b; [reflexivity|]. exfalso. apply (HB eq_refl ct). eapply FirstDead_Dead, FD. }
  subst b. assert (s' = s4) by congruence. subst s'. assert (r = Found true) by congruence. subst r. exists s4. cbn [exec]. rewrite EZ. split; [reflexivity|]. split.
  - intros q HQ E. assert (LQ : Live c ch' q ct).
    { apply LV'. right. split; [reflexivity|]. split; [exact E|]. exact FD. }
    destruct (rep_read c s4 own' ch' blocks' q ct WF RP') as (s5 & E5 & _); [apply HQ|exact LQ|]. exists s5. cbn [exec]. rewrite E5. reflexivity.
  - intros q v HQ NE. rewrite (inv_reads_iff s1 f1), (inv_reads_iff s4 f4) by assumption. rewrite <- (E12 q HQ NE).
    rewrite (step_frame _ _ _ _ (canon q) ST4); [tauto|]. cbn [names_of In]. intros [Q|[]]. congruence.
Qed.

(** ** C25 *)
Theorem C25_rename_partial ops s old new b s' : runs c W (new_file c) ops s -> allowed c W s (Rename old new) ->
  exec c (Rename old new) s = Some (Found b, s') ->
  (b = false <-> reads c s old None) /\
  (forall q, name_ok q -> canon q = canon old -> reads c s' q None) /\
  (forall q v, name_ok q -> canon q = canon new -> (reads c s old v <-> reads c s' q v)) /\
  (forall q v, name_ok q -> canon q <> canon old -> canon q <> canon new -> (reads c s q v <-> reads c s' q v)).
Proof.
  intros R HA EX. destruct (runs_new _ _ R) as (f & M & IV). destruct (step_fun _ _ _ _ _ IV HA EX) as (_ & _ & f' & ST & IV').
  assert (HO : name_ok old) by apply HA. assert (HNw : name_ok new) by apply HA. split; [|split; [|split]].
  - rewrite (inv_reads_iff s f) by assumption. inversion ST; subst; split; congruence.
  - intros q HQ E. apply (inv_reads_iff s' f'); [assumption..|]. rewrite E. inversion ST; subst; cbn [records]; rewrite set_other by assumption; [rewrite set_same|]; congruence.
  - intros q v HQ E. rewrite (inv_reads_iff s f), (inv_reads_iff s' f') by assumption. rewrite E. inversion ST; subst; cbn [records]; rewrite set_same.
    + match goal with H : records f (canon old) = Some _ |- _ => rewrite H end. tauto.
    + match goal with H : records f (canon old) = None |- _ => rewrite H end. tauto.
  - intros q v HQ E1 E2. rewrite (inv_reads_iff s f), (inv_reads_iff s' f') by assumption.
    rewrite (step_frame _ _ _ _ (canon q) ST); [tauto|]. cbn [names_of In]. intros [Q|[Q|[]]]; congruence.
Qed.

(** ** C29 *)
Theorem C29_crash_partial ops s o r s' k p ct : runs c W (new_file c) ops s -> allowed c W s o -> exec c o s = Some (r, s') ->
  name_ok p -> ~ In (canon p) (names_of o) -> reads c s p (Some ct) -> reads c (crash s s' k) p (Some ct).
Proof.
  intros R HA EX HP HN HR. destruct (runs_new _ _ R) as (f & M & IV). pose proof (step_fun _ _ _ _ _ IV HA EX) as O.
  apply (inv_reads_iff s f) in HR; [|assumption..].
  destruct (crash_readable c W s f o r s' k p ct WF IV O HP HN (eq_sym HR)) as (s1 & E). exists s1. cbn [exec]. rewrite E. reflexivity.
Qed.

(** ** C36 *)
Lemma mapped_names f ops f' q : mapped f ops f' -> records f' q <> None -> records f q <> None \/ exists o, In o ops /\ In q (names_of o).
Proof.
  induction 1 as [f|f o r f1 t f2 ST M IH]; intros H; [auto|]. destruct (IH H) as [Q|(o' & Q1 & Q2)]; [|right; exists o'; cbn [In]; auto].
  destruct (in_dec (list_eq_dec Z.eq_dec) q (names_of o)) as [I|I]; [right; exists o; cbn [In]; auto|]. left. rewrite <- (step_frame _ _ _ _ _ ST I). exact Q.
Qed.
Lemma last_canon p : p <> [] -> last (canon p) 0 <> 32 -> last p 0 <> 32.
Proof.
  intros HN H E. apply H. clear H. induction p as [|a [|b p] IH]; [congruence| |].
  - cbn in *. subst a. reflexivity.
  - change (last (canon (a :: b :: p)) 0) with (last (canon (b :: p)) 0). change (last (a :: b :: p) 0) with (last (b :: p) 0) in E. apply IH; [discriminate|exact E].
Qed.
Theorem C36_catalogue_partial ops s : runs c W (new_file c) ops s ->
  (forall o q, In o ops -> In q (names_of o) -> last q 0 <> 32) ->
  exists l, exec c Catalogue s = Some (Names l, s) /\ NoDup (map canon l) /\
    (forall n, In n l -> exists ct, reads c s n (Some ct)) /\
    (forall p ct, name_ok p -> reads c s p (Some ct) -> In (canon p) (map canon l)) /\
    Z.of_nat (length l) = h_numRecords (s_dhdr s).
Proof.
  intros R HB. destruct (runs_new _ _ R) as (f & M & IV).
  assert (NB : forall p, records f (canon p) <> None -> last p 0 <> 32).
  { intros p Q. destruct p as [|a p]; [cbn; lia|]. apply last_canon; [discriminate|]. destruct (mapped_names _ _ _ _ M Q) as [Q1|(o & Q1 & Q2)]; [exfalso; apply Q1; reflexivity|]. eapply HB; eauto. }
  pose proof IV as [(own & ch & blocks & RP & LV & DD & DM & DL) I2 I3]. destruct I3 as (ks & K1 & K2 & K3).
  destruct (rep_catalog c s own ch blocks WF RP I2) as (vl & E & ND & V1 & V2).
  { eapply dead_le_nonneg; eauto. }
  { exists ks. split; [|lia]. intros p ct Q. apply LV in Q. apply K2. congruence. }
  exists (map name_of vl). split; [cbn [exec]; rewrite E; reflexivity|].
  assert (LE : forall e, In e vl -> Live c ch (e_path e) (e_ct e)) by (intros e He; destruct (V1 e He) as (h & i & k & Hh & HE & HV); exists h, i, k, e; auto).
  assert (EN : forall e, In e vl -> name_of e = e_path e).
  { intros e He. unfold name_of. apply fort_to_c_nb, NB. change (canon (e_path e)) with (key (e_path e)). rewrite (proj1 (LV _ _) (LE e He)). discriminate. }
  assert (EM : map canon (map name_of vl) = map (fun e => key (e_path e)) vl) by (rewrite map_map; apply map_ext_in; intros e He; rewrite EN by exact He; reflexivity).
  rewrite EM. split; [exact ND|]. split; [|split].
  - intros n Hn. apply in_map_iff in Hn. destruct Hn as (e & <- & He). rewrite EN by exact He. exists (e_ct e).
    destruct (rep_read c s own ch blocks (e_path e) (e_ct e) WF RP) as (s1 & E1 & _); [|apply LE, He|exists s1; cbn [exec]; rewrite E1; reflexivity].
    destruct (V1 e He) as (h & i & k & Hh & HE & HV). pose proof (Dsk_eok _ _ _ _ _ _ _ _ _ _ (rp_dsk _ _ _ _ _ RP) Hh HE) as ((_ & EL & _) & _).
    unfold e_path, zlen. rewrite firstn_length. lia.
  - intros p ct HP HR. apply (inv_reads_iff s f) in HR; [|assumption..]. change (canon p) with (key p) in *. symmetry in HR. apply LV in HR.
    destruct HR as (h & i & k & e & Hh & HE & HV & EK & _). apply in_map_iff. exists e. split; [exact EK|]. eapply V2; eauto.
  - rewrite map_length. rewrite (rp_hdr _ _ _ _ _ RP). rewrite <- K3. f_equal.
    rewrite <- (map_length (fun e => key (e_path e)) vl). apply Nat.le_antisymm.
    + apply NoDup_incl_length; [exact ND|]. intros q Hq. apply in_map_iff in Hq. destruct Hq as (e & <- & He). apply K2. rewrite (proj1 (LV _ _) (LE e He)). discriminate.
    + apply NoDup_incl_length; [exact K1|]. intros q Hq. apply K2 in Hq. destruct (mapped_names _ _ _ _ M Hq) as [Q|(o & Q1 & Q2)]; [exfalso; apply Q; reflexivity|].
      destruct (records f q) as [ct|] eqn:EQ; [|congruence].
      assert (CQ : key q = q) by (destruct o; cbn [names_of In] in Q2; repeat (destruct Q2 as [<-|Q2]; [apply key_idem|]); contradiction).
      rewrite <- CQ in EQ. apply LV in EQ. destruct EQ as (h & i & k & e & Hh & HE & HV & EK & _). rewrite CQ in EK. apply in_map_iff. exists e. split; [exact EK|]. eapply V2; eauto.
Qed.

(** ** C27: a new record, placed in a deleted slot or not, leaves every other record readable and listed.
    _partial: no deleted name is longer than [W] words and no new name shorter; false otherwise. *)
Theorem C27_new_record_keeps_others_partial ops s now prog x s' q ct :
  runs c W (new_file c) ops s -> allowed c W s (Write now prog x) -> reads c s (x_path x) None ->
  exec c (Write now prog x) s = Some (Done, s') -> name_ok q -> reads c s q (Some ct) ->
  reads c s' q (Some ct) /\ reads c s' (x_path x) (Some (stored x)).
Proof.
  intros R HA HN EX HQ HR. assert (HX : name_ok (x_path x)) by apply HA.
  destruct (runs_new _ _ R) as (f & M & IV). destruct (step_fun _ _ _ _ _ IV HA EX) as (_ & _ & f' & ST & IV').
  assert (HR' := HR). apply (inv_reads_iff s f) in HR'; [|assumption..]. apply (inv_reads_iff s f) in HN; [|assumption..]. split.
  - apply (C22_others_unchanged_partial ops s (Write now prog x) Done s' q (Some ct)); auto. cbn [names_of In]. intros [E|[]]. rewrite <- E in HR'. congruence.
  - apply (inv_reads_iff s' f'); [assumption..|]. inversion ST; subst. cbn [records]. rewrite set_same. reflexivity.
Qed.
End R.
