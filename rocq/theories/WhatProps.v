(** * C58: what changed since a moment. *)
From Coq Require Import ZArith List Lia Bool ZifyBool.
From Verif Require Import Base ArrayLib PackModel PackProps HashModel FileModel FileLemmas FileScan FileInv FileDir FileLook FileRead FileAlloc FileBin FileSlot FileUpd FileStep FileWrite FileExist FileOps FileDel FileRen FileCount FileCat FileSpec FileHist FileHistSpec FileProps CatModel CatProofs CatScan CatProps WhatModel WhatSpec.
Import ListNotations.
Open Scope Z_scope.

(** the record [q] is in the directory with a time after [T] *)
Definition late (c : cfg) (ch : chains) (T : Z) (q : list Z) : Prop :=
  exists h i k e, 0 <= h < c_maxHash c /\ entry_at ch (h, i, k) = Some e /\ live e /\ key (e_path e) = q /\ T < e_lw e.
Definition named (f : file) : Prop := forall q, records f q <> None -> last q 0 <> 32.

Lemma since_answer c W s f own ch blocks lo T : wf_cfg c -> Inv c W s f -> Rep c s own ch blocks ->
  (forall p ct, Live c ch p ct <-> records f (key p) = Some ct) -> named f -> 0 < T ->
  exists l, zwhatChanged c lo None T s = OK l s /\ NoDup (map canon l) /\ (forall q, In q (map canon l) <-> late c ch T q).
Proof.
  intros WF IV RP LV NM HT. destruct IV as [(own0 & ch0 & blocks0 & _ & _ & _ & _ & DL) I2 I3]. destruct I3 as (ks & K1 & K2 & K3).
  set (keep := chosen (l_junk lo) (l_pbuf lo) (l_sbuf lo) None None false (mksel 0 0 T 2)).
  set (kb := fun e : entry => e_lw e >? T).
  assert (KE : forall e, keep (e_path e) (fst (i8toi4 false (e_tc e))) (e_lw e) = Ok (kb e)).
  { intros e. unfold keep, chosen, type_time. cbn [bind s_typeStart s_time s_timeFlag]. cbn [orb].
    destruct (T >? 0) eqn:E; [|lia]. reflexivity. }
  destruct (rep_select keep kb c s own ch blocks WF RP) with (ls := h_numRecords (s_hdr s) + h_numRenames (s_hdr s) + h_numDeletes (s_hdr s)) as (vl & E & ND & V1 & V2).
  { intros h i a es Hh Hi. rewrite Forall_forall. intros e He _. apply KE. }
  { exists ks. split; [intros p ct Q; apply LV in Q; apply K2; congruence|]. pose proof (dead_le_nonneg _ _ _ DL). lia. }
  assert (LE : forall e, In e vl -> Live c ch (e_path e) (e_ct e)) by (intros e He; destruct (V1 e He) as (h & i & k & Hh & HE & HV); exists h, i, k, e; auto).
  assert (EN : forall e, In e vl -> name_of e = e_path e).
  { intros e He. unfold name_of. apply fort_to_c_nb. destruct (e_path e) as [|x t] eqn:EP; [cbn; lia|]. apply last_canon; [discriminate|].
    rewrite <- EP. apply NM. pose proof (LE e He) as Q. apply LV in Q. change (canon (e_path e)) with (key (e_path e)). congruence. }
  exists (map name_of (filter kb vl)). split; [|split].
  - unfold zwhatChanged, zcatalogSelect. fold keep. cbv zeta. rewrite (bindM_OK _ _ _ _ _ (setH_same s (rp_hdr _ _ _ _ _ RP))).
    rewrite (rp_hdr _ _ _ _ _ RP). exact E.
  - rewrite map_map. rewrite (map_ext_in _ (fun e => key (e_path e))) by (intros e He; apply filter_In in He; rewrite EN by apply He; reflexivity).
    clear - ND. induction vl as [|e l IH]; [constructor|]. cbn [map filter] in *. inversion_clear ND as [|? ? N1 N2]. destruct (kb e); [|auto]. cbn [map]. constructor; [|auto].
    intros Q. apply N1. apply in_map_iff in Q. destruct Q as (x & X1 & X2). apply filter_In in X2. apply in_map_iff. exists x. split; [exact X1|apply X2].
  - intros q. rewrite map_map. split.
    + intros Q. apply in_map_iff in Q. destruct Q as (e & X1 & X2). apply filter_In in X2. destruct X2 as [X2 X3]. rewrite EN in X1 by exact X2.
      destruct (V1 e X2) as (h & i & k & Hh & HE & HV). exists h, i, k, e. unfold kb in X3. split; [exact Hh|]. split; [exact HE|]. split; [exact HV|]. split; [exact X1|lia].
    + intros (h & i & k & e & Hh & HE & HV & EK & HL). pose proof (V2 h i k e Hh HE HV) as He. apply in_map_iff. exists e.
      split; [rewrite EN by exact He; exact EK|]. apply filter_In. split; [exact He|]. unfold kb. lia.
Qed.

Lemma late_stamped c W s f own ch blocks ch' own' blocks' s' q now T : wf_cfg c -> Inv c W s f -> Rep c s own ch blocks -> Rep c s' own' ch' blocks' ->
  Stamped c ch ch' q now -> (forall p ct, key p <> q -> Live c ch p ct -> Live c ch' p ct) ->
  forall q', late c ch' T q' <-> (q' = q /\ T < now) \/ (q' <> q /\ late c ch T q').
Proof.
  intros WF IV RP RP' (h & i & k & e & Hh & HE & HV & EK & EL & HO) LV q'. split.
  - intros (h1 & i1 & k1 & e1 & Hh1 & HE1 & HV1 & EK1 & EL1). destruct (pos_eq_dec (h1, i1, k1) (h, i, k)) as [Q|Q].
    + left. rewrite Q, HE in HE1. assert (e1 = e) by congruence. subst e1. split; [congruence|lia].
    + right. split; [|rewrite HO in HE1 by exact Q; exists h1, i1, k1, e1; auto]. intros ->.
      assert (h1 = h).
      { pose proof (Dsk_eok _ _ _ _ _ _ _ _ _ _ (rp_dsk _ _ _ _ _ RP') Hh1 HE1) as (_ & Z1 & _).
        pose proof (Dsk_eok _ _ _ _ _ _ _ _ _ _ (rp_dsk _ _ _ _ _ RP') Hh HE) as (_ & Z2 & _).
        rewrite (zhash_key _ _ (e_path e1) (e_path e) ltac:(congruence)) in Z1. congruence. }
      subst h1. destruct (rp_uniq _ _ _ _ _ RP' h i1 k1 e1 i k e Hh HE1 HE HV1 HV ltac:(congruence)). congruence.
  - intros [[-> HL]|[N (h1 & i1 & k1 & e1 & Hh1 & HE1 & HV1 & EK1 & EL1)]]; [exists h, i, k, e; repeat split; try tauto; lia|].
    assert (L1 : Live c ch (e_path e1) (e_ct e1)) by (exists h1, i1, k1, e1; auto).
    assert (NK : key (e_path e1) <> q) by congruence. destruct (LV _ _ NK L1) as (h2 & i2 & k2 & e2 & Hh2 & HE2 & HV2 & EK2 & _).
    destruct (pos_eq_dec (h2, i2, k2) (h, i, k)) as [Q|Q]; [exfalso; rewrite Q, HE in HE2; congruence|].
    assert (HE2' := HE2). rewrite HO in HE2' by exact Q.
    assert (h2 = h1).
    { pose proof (Dsk_eok _ _ _ _ _ _ _ _ _ _ (rp_dsk _ _ _ _ _ RP) Hh1 HE1) as (_ & Z1 & _).
      pose proof (Dsk_eok _ _ _ _ _ _ _ _ _ _ (rp_dsk _ _ _ _ _ RP) Hh2 HE2') as (_ & Z2 & _).
      rewrite (zhash_key _ _ _ _ EK2), Z1 in Z2. congruence. }
    subst h2. destruct (rp_uniq _ _ _ _ _ RP h1 i2 k2 e2 i1 k1 e1 Hh1 HE2' HE1 HV2 HV1 EK2). subst i2 k2.
    exists h1, i1, k1, e1. rewrite HE1 in HE2'. split; [exact Hh1|]. split; [congruence|]. auto.
Qed.

Lemma late_removed c s own ch blocks ch' p T : wf_cfg c -> Rep c s own ch blocks ->
  (forall pos e, entry_at ch' pos = Some e -> live e -> entry_at ch pos = Some e) ->
  (forall q ct, Live c ch' q ct <-> key q <> key p /\ Live c ch q ct) ->
  forall q, late c ch' T q <-> q <> key p /\ late c ch T q.
Proof.
  intros WF RP HO LV q. split.
  - intros (h1 & i1 & k1 & e1 & Hh1 & HE1 & HV1 & EK1 & EL1). split.
    + assert (L1 : Live c ch' (e_path e1) (e_ct e1)) by (exists h1, i1, k1, e1; auto). apply LV in L1. rewrite <- EK1. apply L1.
    + exists h1, i1, k1, e1. split; [exact Hh1|]. split; [apply HO; assumption|auto].
  - intros [N (h1 & i1 & k1 & e1 & Hh1 & HE1 & HV1 & EK1 & EL1)].
    assert (L1 : Live c ch' (e_path e1) (e_ct e1)) by (apply LV; split; [congruence|exists h1, i1, k1, e1; auto]).
    destruct L1 as (h2 & i2 & k2 & e2 & Hh2 & HE2 & HV2 & EK2 & _). pose proof (HO _ _ HE2 HV2) as HE2'.
    assert (h2 = h1).
    { pose proof (Dsk_eok _ _ _ _ _ _ _ _ _ _ (rp_dsk _ _ _ _ _ RP) Hh1 HE1) as (_ & Z1 & _).
      pose proof (Dsk_eok _ _ _ _ _ _ _ _ _ _ (rp_dsk _ _ _ _ _ RP) Hh2 HE2') as (_ & Z2 & _).
      rewrite (zhash_key _ _ _ _ EK2), Z1 in Z2. congruence. }
    subst h2. destruct (rp_uniq _ _ _ _ _ RP h1 i2 k2 e2 i1 k1 e1 Hh1 HE2' HE1 HV2 HV1 EK2). subst i2 k2.
    exists h1, i1, k1, e1. rewrite HE1 in HE2'. split; [exact Hh1|]. split; [congruence|]. auto.
Qed.

Lemma named_step f o r f' : step f o r f' -> (forall q, In q (names_of o) -> last q 0 <> 32) -> named f -> named f'.
Proof.
  intros ST HN NM q HQ. destruct (in_dec (list_eq_dec Z.eq_dec) q (names_of o)) as [I|I]; [apply HN, I|].
  apply NM. rewrite <- (step_frame _ _ _ _ _ ST I). exact HQ.
Qed.

Section WHAT.
Variables (c : cfg) (W : Z) (lo : locals) (T : Z).
Hypothesis WF : wf_cfg c.
Hypothesis U : usable c.
Hypothesis HT : 0 < T.

(** is the record [q] late after the request [o], given that it exists then? *)
Definition turn (o : op) (before : list Z -> Prop) (q : list Z) : Prop :=
  match o with
  | Write now _ x => if list_eq_dec Z.eq_dec (key (x_path x)) q then T < now else before q
  | _ => before q
  end.

Lemma late_live ch f q : (forall p ct, Live c ch p ct <-> records f (key p) = Some ct) -> late c ch T q -> records f q <> None.
Proof.
  intros LV (h & i & k & e & Hh & HE & HV & EK & _). assert (L : Live c ch (e_path e) (e_ct e)) by (exists h, i, k, e; auto).
  apply LV in L. rewrite EK in L. congruence.
Qed.


Lemma rep_same s s' own ch blocks : Rep c s own ch blocks -> s_disk s' = s_disk s -> s_dhdr s' = s_dhdr s -> s_hdr s' = s_hdr s -> Rep c s' own ch blocks.
Proof. intros RP E1 E2 E4. destruct RP. split; rewrite ?E1, ?E2, ?E4; auto. Qed.

Lemma step_since s f o r s' l : Inv c W s f -> named f -> (forall q, In q (names_of o) -> last q 0 <> 32) -> ordinary o ->
  allowed c W s o -> exec c o s = Some (r, s') -> zwhatChanged c lo None T s = OK l s ->
  exists f' l', step f o r f' /\ Inv c W s' f' /\ named f' /\ zwhatChanged c lo None T s' = OK l' s' /\ NoDup (map canon l') /\
    (forall q, In q (map canon l') <-> records f' q <> None /\ turn o (fun q => In q (map canon l)) q).
Proof.
  intros IV NM NO OR HA EX AN. destruct (step_fun c W U s f o r s' IV HA EX) as (_ & _ & f' & ST & IV').
  pose proof (named_step _ _ _ _ ST NO NM) as NM'. assert (IV0 := IV). destruct IV0 as [(own & ch & blocks & RP & LV & DD & DM & DL) I2 I3].
  destruct (since_answer c W s f own ch blocks lo T WF IV RP LV NM HT) as (l0 & A0 & _ & HL). assert (l0 = l) by congruence. subst l0. clear A0.
  assert (FIN : forall own' ch' blocks', Rep c s' own' ch' blocks' -> (forall p ct, Live c ch' p ct <-> records f' (key p) = Some ct) ->
     (forall q, late c ch' T q <-> records f' q <> None /\ turn o (late c ch T) q) ->
     exists f' l', step f o r f' /\ Inv c W s' f' /\ named f' /\ zwhatChanged c lo None T s' = OK l' s' /\ NoDup (map canon l') /\
       (forall q, In q (map canon l') <-> records f' q <> None /\ turn o (fun q => In q (map canon l)) q)).
  { intros own' ch' blocks' RP' LV' H. destruct (since_answer c W s' f' own' ch' blocks' lo T WF IV' RP' LV' NM' HT) as (l' & A' & ND' & HL').
    exists f', l'. split; [exact ST|]. split; [exact IV'|]. split; [exact NM'|]. split; [exact A'|]. split; [exact ND'|]. intros q. rewrite HL', H. unfold turn. destruct o; try (rewrite HL; tauto). destruct (list_eq_dec Z.eq_dec (key (x_path x)) q); [tauto|rewrite HL; tauto]. }
  match goal with |- ?G => assert (SAME : s_disk s' = s_disk s -> s_dhdr s' = s_dhdr s -> s_hdr s' = s_hdr s -> f' = f -> (forall B q, turn o B q <-> B q) -> G) by
    (intros E1 E2 E4 EF NW; apply (FIN own ch blocks);
     [eapply rep_same; eauto|subst f'; exact LV|intros q; subst f'; split; [intros Q; split; [eapply late_live; eauto|apply NW; exact Q]|intros [_ Q]; exact (proj1 (NW _ _) Q)]]) end.
  destruct o as [now prog x|p|p|p|old new| |]; cbn [ordinary] in OR; try contradiction.
  - (* Write *)
    destruct HA as (RF & HW & HO). destruct (request_fits_ok x RF) as (RQ & HTx). assert (HW0 := HW). rewrite name_words_of in HW. pose proof RQ as (Q1 & _).
    assert (SS : forall h hash, zhash (c_detune c) (c_maxHash c) (x_path x) = Ok (h, hash) -> safe_slot c (ch h) (zlen (x_path x))).
    { intros h hash HP. destruct (zhash_ok c (x_path x) WF) as (h1 & hash1 & HP1 & Hh & _). assert (h1 = h) by congruence. subst h1.
      eapply dead_max_safe; eauto. apply (rp_dsk _ _ _ _ _ RP). }
    assert (NOK : name_ok (x_path x)) by apply RF.
    assert (EV : forall ct, Live c ch (x_path x) ct -> odd_headers x <= odd_content ct).
    { intros ct Q. apply HO. apply (inv_reads_iff c W U s f); [exact IV|exact NOK|]. symmetry. apply LV, Q. }
    pose proof (run_zwriteInternal c now prog x s own ch blocks WF RP RQ EV HTx SS) as R. unfold run in R. cbn [exec] in EX.
    destruct (zwriteInternal c now prog x s) as [[] s1|s1|] eqn:EZ; [| |contradiction]; inversion EX; subst r s1.
    + destruct R as [_ [TC (own' & ch' & blocks' & RP' & LV' & _ & _ & _ & _ & STM)]].
      assert (EF : f' = mkfile (set (records f) (canon (x_path x)) (Some (stored x))) (trash f)) by (inversion ST; reflexivity).
      assert (LE : forall p ct, Live c ch' p ct <-> records f' (key p) = Some ct).
      { intros p ct. rewrite EF. cbn [records]. rewrite LV', stored_content. change (canon (x_path x)) with (key (x_path x)). destruct (list_eq_dec Z.eq_dec (key p) (key (x_path x))) as [E|E].
        - rewrite E, set_same. split; [intros [[_ ->]|[Q _]]; [reflexivity|congruence]|intros Q; left; split; congruence].
        - rewrite set_other by exact E. rewrite <- LV. tauto. }
      apply (FIN own' ch' blocks' RP' LE). intros q.
      rewrite (late_stamped c W s f own ch blocks ch' own' blocks' s' (key (x_path x)) now T WF IV RP RP' STM) by (intros p ct N Q; apply LV'; auto).
      rewrite EF. cbn [records turn]. change (canon (x_path x)) with (key (x_path x)). destruct (list_eq_dec Z.eq_dec (key (x_path x)) q) as [<-|N].
      * rewrite set_same. split; [intros [[_ Q]|[Q _]]; [split; [discriminate|exact Q]|congruence]|intros [_ Q]; left; auto].
      * rewrite set_other by congruence. split; [intros [[Q _]|[_ Q]]; [congruence|split; [eapply late_live; eauto|exact Q]]|intros [_ Q]; right; auto].
    + destruct R as [_ [(ct & LVx & TC) (own' & ch' & blocks' & RP' & LV' & _ & _ & _ & STM)]].
      assert (EF : f' = f) by (inversion ST; reflexivity).
      assert (LE : forall p ct, Live c ch' p ct <-> records f' (key p) = Some ct) by (intros p ct0; rewrite EF, LV'; apply LV).
      apply (FIN own' ch' blocks' RP' LE). intros q.
      rewrite (late_stamped c W s f own ch blocks ch' own' blocks' s' (key (x_path x)) now T WF IV RP RP' STM) by (intros p ct0 N Q; apply LV'; auto).
      rewrite EF. cbn [turn]. destruct (list_eq_dec Z.eq_dec (key (x_path x)) q) as [<-|N].
      * split; [intros [[_ Q]|[Q _]]; [split; [apply LV in LVx; congruence|exact Q]|congruence]|intros [_ Q]; left; auto].
      * split; [intros [[Q _]|[_ Q]]; [congruence|split; [eapply late_live; eauto|exact Q]]|intros [_ Q]; right; auto].
  - (* Read *) pose proof (read_same c W U s f p r s' IV HA EX) as (E1 & E2 & _ & E4).
    apply SAME; try assumption; [inversion ST; reflexivity|intros B q; reflexivity].
  - (* Delete *)
    destruct HA as (NOK & HW). pose proof NOK as (N1 & N2 & N3)%name_ok_parts. rewrite name_words_of in HW.
    pose proof (run_zdelete c s own ch blocks p WF RP N1 N3) as R. unfold run in R. cbn [exec] in EX.
    destruct (zdeleteInternal c p false s) as [b s1|s1|] eqn:EZ; [|exfalso; apply R|contradiction]. inversion EX; subst r s1.
    destruct R as (_ & HB & _ & own' & ch' & blocks' & RP' & LV' & _ & _ & _ & _ & RM).
    assert (EF : forall q, records f' q = set (records f) (key p) None q).
    { intros q. inversion ST; subst; cbn [records]; [reflexivity|]. destruct (list_eq_dec Z.eq_dec q (key p)) as [->|N]; [rewrite set_same|rewrite set_other by exact N; reflexivity]. assumption. }
    apply (FIN own' ch' blocks' RP').
    + intros q ct. rewrite LV', EF. destruct (list_eq_dec Z.eq_dec (key q) (key p)) as [E|E].
      * rewrite E, set_same. split; [intros [Q _]; congruence|discriminate].
      * rewrite set_other by exact E. rewrite <- LV. tauto.
    + intros q. rewrite (late_removed c s own ch blocks ch' p T WF RP RM LV'), EF. split.
      * intros [N Q]. rewrite set_other by exact N. split; [eapply late_live; eauto|exact Q].
      * intros [Q Q2]. split; [|exact Q2]. intros ->. rewrite set_same in Q. congruence.
  - (* Catalogue *) rewrite (cat_same c W U s f r s' IV EX) in *. apply SAME; try reflexivity. inversion ST; reflexivity.
  - (* Reopen *) cbn [exec] in EX. inversion EX; subst r s'. pose proof (rp_hdr _ _ _ _ _ RP) as EH.
    apply SAME; try reflexivity; [exact EH|inversion ST; reflexivity].
Qed.


Lemma last_write_cons o t q : last_write (o :: t) q = match last_write t q with Some now => Some now | None => last_write [o] q end.
Proof. cbn [last_write]. destruct (last_write t q); [reflexivity|]. destruct o; reflexivity. Qed.
Lemma turn_last o B q : key q = q -> turn o B q <-> match last_write [o] q with Some now => T < now | None => B q end.
Proof.
  intros E. destruct o; try reflexivity. cbn [turn last_write]. change (canon ?a) with (key a). rewrite E.
  destruct (list_eq_dec Z.eq_dec (key (x_path x)) q); reflexivity.
Qed.
Lemma mapped_kept f ops f' q : mapped f ops f' -> Forall ordinary ops -> key q = q -> records f' q <> None -> last_write ops q = None -> records f q <> None.
Proof.
  induction 1 as [f|f o r f1 t f2 ST M IH]; intros FO EK H HN; [exact H|]. inversion_clear FO as [|? ? F1 F2]. rewrite last_write_cons in HN.
  destruct (last_write t q) eqn:LT; [discriminate|]. specialize (IH F2 EK H eq_refl).
  inversion ST; subst; cbn [ordinary] in F1; try contradiction; auto.
  - cbn [last_write] in HN. destruct (list_eq_dec Z.eq_dec (canon (x_path x)) (canon q)) as [E|N]; [discriminate|].
    cbn [records] in IH. rewrite set_other in IH; [exact IH|]. intros Q. apply N. change (canon q) with (key q). rewrite EK. symmetry. exact Q.
  - cbn [records] in IH. destruct (list_eq_dec Z.eq_dec q (canon p)) as [->|N]; [rewrite set_same in IH; congruence|rewrite set_other in IH by exact N; exact IH].
Qed.

Lemma run_since s ops s' : runs c W s ops s' -> forall f l, Inv c W s f -> named f -> names_end_well ops -> Forall ordinary ops ->
  zwhatChanged c lo None T s = OK l s -> NoDup (map canon l) -> (forall q, In q (map canon l) -> records f q <> None) ->
  exists f' l', mapped f ops f' /\ Inv c W s' f' /\ zwhatChanged c lo None T s' = OK l' s' /\ NoDup (map canon l') /\
    (forall q, key q = q -> In q (map canon l') <-> records f' q <> None /\ match last_write ops q with Some now => T < now | None => In q (map canon l) end) /\
    (forall q, In q (map canon l') -> records f' q <> None).
Proof.
  induction 1 as [s|s o r s1 t s2 HA EX HR IH]; intros f l IV NM NE FO AN ND HL.
  - exists f, l. split; [constructor|]. split; [exact IV|]. split; [exact AN|]. split; [exact ND|]. split; [|exact HL]. intros q _.
    split; [intros Q; auto|intros [_ Q]; exact Q].
  - inversion_clear FO as [|? ? F1 F2].
    destruct (step_since s f o r s1 l IV NM (fun q H => NE o q (or_introl eq_refl) H) F1 HA EX AN)
      as (f1 & l1 & ST & IV1 & NM1 & AN1 & ND1 & HL1).
    destruct (IH f1 l1 IV1 NM1 (fun o q H => NE o q (or_intror H)) F2 AN1 ND1) as (f2 & l2 & M & IV2 & AN2 & ND2 & HL2 & HR2).
    { intros q Q. apply HL1, Q. }
    exists f2, l2. split; [econstructor; eauto|]. split; [exact IV2|]. split; [exact AN2|]. split; [exact ND2|]. split; [|exact HR2]. intros q EK. rewrite HL2 by exact EK.
    rewrite last_write_cons. destruct (last_write t q) as [n|] eqn:LT; [reflexivity|]. rewrite HL1, turn_last by exact EK. split.
    + intros (Q1 & Q2 & Q3). auto.
    + intros (Q1 & Q2). split; [exact Q1|]. split; [|exact Q2]. eapply mapped_kept; eauto.
Qed.
End WHAT.

Lemma named_run ops f : mapped empty_file ops f -> names_end_well ops -> named f.
Proof.
  intros M NE q HQ. destruct (mapped_names _ _ _ q M HQ) as [Q|(o & Q1 & Q2)]; [exfalso; apply Q; reflexivity|]. eapply NE; eauto.
Qed.
Lemma last_write_key ops p : last_write ops (canon p) = last_write ops p.
Proof.
  induction ops as [|o t IH]; [reflexivity|]. rewrite (last_write_cons o t (canon p)), (last_write_cons o t p), IH. destruct (last_write t p); [reflexivity|]. destruct o; try reflexivity.
  cbn [last_write]. change (canon (canon p)) with (key (key p)). rewrite key_idem. reflexivity.
Qed.

(** ** C58.  After any requests [ops1], then any reads, writes, deletes, catalogues and reopenings [ops2]: the answer for
    the start [T] has the records that can be read and that [ops2] last wrote after [T] or, if it did not write them, were
    in the answer before [ops2]. *)
Theorem C58_since_partial c W ops1 s1 ops2 s2 lo T : usable c -> runs c W (new_file c) ops1 s1 -> runs c W s1 ops2 s2 ->
  names_end_well (ops1 ++ ops2) -> Forall ordinary ops2 -> 0 < T ->
  exists l1 l2, zwhatChanged c lo None T s1 = OK l1 s1 /\ zwhatChanged c lo None T s2 = OK l2 s2 /\ NoDup (map canon l2) /\
    (forall p, name_ok p -> (In (canon p) (map canon l2) <->
       (exists ct, reads c s2 p (Some ct)) /\ match last_write ops2 p with Some now => T < now | None => In (canon p) (map canon l1) end)) /\
    (forall n, In n (map canon l2) -> exists o, In o (ops1 ++ ops2) /\ In n (names_of o)).
Proof.
  intros U R1 R2 NE FO HT. pose proof (proj1 (usable_wf c U)) as WF.
  destruct (runs_new c W U _ _ R1) as (f1 & M1 & IV1).
  assert (NM1 : named f1) by (apply (named_run ops1 f1 M1); intros o q H; apply NE, in_or_app; auto).
  assert (IV0 := IV1). destruct IV0 as [(own & ch & blocks & RP & LV & _) _ _].
  destruct (since_answer c W s1 f1 own ch blocks lo T WF IV1 RP LV NM1 HT) as (l1 & A1 & ND1 & HL1).
  assert (K1 : forall q, In q (map canon l1) -> records f1 q <> None) by (intros q Q; apply HL1 in Q; eapply late_live; eauto).
  destruct (run_since c W lo T WF U HT s1 ops2 s2 R2 f1 l1 IV1 NM1 (fun o q H => NE o q (in_or_app _ _ _ (or_intror H))) FO A1 ND1 K1)
    as (f2 & l2 & M2 & IV2 & A2 & ND2 & HL2 & HR2).
  exists l1, l2. split; [exact A1|]. split; [exact A2|]. split; [exact ND2|]. split.
  - intros p NP. rewrite HL2 by apply key_idem. rewrite last_write_key.
    assert (RD : (exists ct, reads c s2 p (Some ct)) <-> records f2 (canon p) <> None).
    { split; [intros (ct & Q); apply (inv_reads_iff c W U s2 f2) in Q; [congruence|assumption..]|].
      destruct (records f2 (canon p)) as [ct|] eqn:E; [intros _; exists ct; apply (inv_reads_iff c W U s2 f2); auto|congruence]. }
    rewrite RD. reflexivity.
  - intros n Hn. apply HR2 in Hn.
    destruct (mapped_names _ _ _ n M2 Hn) as [Q|(o & O1 & O2)]; [|exists o; split; [apply in_or_app; auto|exact O2]].
    destruct (mapped_names _ _ _ n M1 Q) as [Q'|(o & O1 & O2)]; [exfalso; apply Q'; reflexivity|exists o; split; [apply in_or_app; auto|exact O2]].
Qed.
Print Assumptions C58_since_partial.

(** For a file on which only such requests were made: the answer has exactly the records that can be read and were last
    written after [T]. *)
Theorem C58_changed_partial c W ops s lo T : usable c -> runs c W (new_file c) ops s -> names_end_well ops -> Forall ordinary ops -> 0 < T ->
  exists l, zwhatChanged c lo None T s = OK l s /\ NoDup (map canon l) /\
    (forall p, name_ok p -> (In (canon p) (map canon l) <->
       (exists ct, reads c s p (Some ct)) /\ exists now, last_write ops p = Some now /\ T < now)).
Proof.
  intros U R NE FO HT. destruct (C58_since_partial c W [] (new_file c) ops s lo T U (runs_nil _ _ _) R NE FO HT) as (l1 & l2 & A1 & A2 & ND & HL & _).
  exists l2. split; [exact A2|]. split; [exact ND|]. intros p NP. rewrite (HL p NP).
  destruct (last_write ops p) as [n|]; [split; [intros [Q1 Q2]; split; [exact Q1|exists n; auto]|intros (Q1 & n' & E & Q2); split; [exact Q1|congruence]]|].
  split; [|intros (_ & n' & E & _); discriminate]. intros [_ Q]. exfalso.
  destruct (C58_since_partial c W [] (new_file c) [] (new_file c) lo T U (runs_nil _ _ _) (runs_nil _ _ _) (fun o q H => match H with end) (Forall_nil _) HT)
    as (k1 & k2 & B1 & B2 & _ & _ & HN).
  assert (k2 = l1) by congruence. subst k2. destruct (HN _ Q) as (o & [] & _).
Qed.
Print Assumptions C58_changed_partial.

(** ** With CRC values: of the records of the second catalogue, those are reported that the first catalogue has with
    another CRC.  (A record the first catalogue does not have is not reported: C58_refuted_new below.) *)
Lemma crc_inner_spec room i h crc : forall before index, NoDup (map fst before) -> (length index < room)%nat ->
  exists b, crc_inner room i h crc before index = Ok (index ++ b) /\
    ((b = [i] /\ exists crc', In (h, crc') before /\ crc' <> crc) \/ (b = [] /\ ~ exists crc', In (h, crc') before /\ crc' <> crc)).
Proof.
  induction before as [|[h' crc'] t IH]; intros index ND HL; cbn [crc_inner].
  - exists []. rewrite app_nil_r. split; [reflexivity|]. right. split; [reflexivity|]. intros (c & [] & _).
  - cbn [map fst] in ND. inversion_clear ND as [|? ? N1 N2]. destruct ((h =? h') && negb (crc =? crc')) eqn:E.
    + destruct (length index <? room)%nat eqn:EL; [|apply Nat.ltb_ge in EL; lia]. assert (h' = h) by lia. subst h'.
      exists [i]. split; [|left; split; [reflexivity|exists crc'; split; [left; reflexivity|lia]]].
      assert (G : forall l idx, ~ In h (map fst l) -> crc_inner room i h crc l idx = Ok idx).
      { clear. induction l as [|[a b] l IH]; intros idx H; [reflexivity|]. cbn [crc_inner map fst In] in *. destruct (h =? a) eqn:Q; [exfalso; apply H; left; lia|]. cbn [andb]. apply IH. tauto. }
      apply G, N1.
    + destruct (IH index N2 HL) as (b & E1 & E2). exists b. split; [exact E1|]. destruct E2 as [[-> (c & C1 & C2)]|[-> C]].
      * left. split; [reflexivity|]. exists c. split; [right; exact C1|exact C2].
      * right. split; [reflexivity|]. intros (c & [Q|Q] & C2); [|apply C; exists c; auto]. inversion Q; subst. rewrite Z.eqb_refl in E. cbn [andb] in E. lia.
Qed.
Theorem C58_crc_partial now before : NoDup (map fst before) ->
  exists index, crc_changed now before = Ok index /\ NoDup index /\
    forall i, In i index <-> exists h crc crc', nth_error now i = Some (h, crc) /\ In (h, crc') before /\ crc' <> crc.
Proof.
  intros ND. unfold crc_changed.
  assert (G : forall l pre index, now = pre ++ l -> NoDup index -> (length index <= length pre)%nat -> (forall i, In i index -> (i < length pre)%nat) ->
    exists index', crc_outer (length now) (length pre) l before index = Ok index' /\ NoDup index' /\
      forall i, In i index' <-> In i index \/ ((length pre <= i)%nat /\ exists h crc crc', nth_error now i = Some (h, crc) /\ In (h, crc') before /\ crc' <> crc)).
  { induction l as [|[h crc] l IH]; intros pre index EN NI HL HB; cbn [crc_outer].
    - exists index. split; [reflexivity|]. split; [exact NI|]. intros i. split; [auto|]. intros [Q|[Q (h & crc & crc' & E & _)]]; [exact Q|].
      assert (i < length now)%nat by (apply nth_error_Some; congruence). rewrite EN, app_nil_r in *. lia.
    - assert (LN : (length now = length pre + S (length l))%nat) by (rewrite EN, app_length; reflexivity).
      destruct (crc_inner_spec (length now) (length pre) h crc before index ND ltac:(lia)) as (b & E & HBb). rewrite E.
      assert (NP : nth_error now (length pre) = Some (h, crc)) by (rewrite EN, nth_error_app2 by lia; rewrite Nat.sub_diag; reflexivity).
      destruct (IH (pre ++ [(h, crc)]) (index ++ b)) as (index' & E1 & E2 & E3).
      { rewrite <- app_assoc. exact EN. }
      { destruct HBb as [[-> _]|[-> _]]; [|rewrite app_nil_r; exact NI].
        clear - NI HB. induction index as [|a index IH]; [constructor; [intros []|constructor]|]. inversion_clear NI as [|? ? N1 N2]. cbn [app]. constructor.
        - intros Q. apply in_app_or in Q. destruct Q as [Q|[Q|[]]]; [exact (N1 Q)|]. specialize (HB a (or_introl eq_refl)). lia.
        - apply IH; [exact N2|]. intros i Q. apply HB. right. exact Q. }
      { rewrite !app_length. cbn [length]. destruct HBb as [[-> _]|[-> _]]; cbn [length]; lia. }
      { intros i Q. rewrite app_length. cbn [length]. apply in_app_or in Q. destruct Q as [Q|Q]; [specialize (HB i Q); lia|].
        destruct HBb as [[-> _]|[-> _]]; [destruct Q as [<-|[]]; lia|destruct Q]. }
      rewrite app_length in E1. cbn [length] in E1. rewrite Nat.add_1_r in E1. exists index'. split; [exact E1|]. split; [exact E2|]. intros i. rewrite E3, in_app_iff, app_length. cbn [length].
      split.
      + intros [[Q|Q]|[Q1 Q2]]; [auto| |right; split; [lia|exact Q2]]. right.
        destruct HBb as [[-> (c' & C1 & C2)]|[-> _]]; [|destruct Q]. destruct Q as [<-|[]]. split; [lia|]. exists h, crc, c'. auto.
      + intros [Q|[Q1 (h1 & crc1 & c1 & C1 & C2 & C3)]]; [auto|]. destruct (Nat.eq_dec i (length pre)) as [->|N].
        * left. right. rewrite NP in C1. inversion C1; subst h1 crc1. destruct HBb as [[-> _]|[_ C]]; [left; reflexivity|exfalso; apply C; exists c1; auto].
        * right. split; [lia|]. exists h1, crc1, c1. auto. }
  destruct (G now [] [] eq_refl (NoDup_nil _) ltac:(cbn; lia) ltac:(intros i [])) as (index & E1 & E2 & E3).
  exists index. split; [exact E1|]. split; [exact E2|]. intros i. rewrite E3. cbn [length]. split; [intros [[]|[_ Q]]; exact Q|intros Q; right; split; [lia|exact Q]].
Qed.
Print Assumptions C58_crc_partial.
