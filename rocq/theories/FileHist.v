(** * A file refines the map specification. *)
From Coq Require Import ZArith List Lia Bool Arith.
From Verif Require Import Base PackModel PackProps HashModel FileModel FileLemmas FileScan FileInv FileDir FileLook FileRead FileAlloc FileBin FileSlot FileUpd FileStep FileWrite FileExist FileOps FileDel FileRen FileCount FileCat FileSpec.
Import ListNotations.
Open Scope Z_scope.

Lemma canon_key p : canon p = key p. Proof. reflexivity. Qed.
Lemma key_idem p : key (key p) = key p.
Proof. unfold key. rewrite map_map. apply map_ext. intros c. apply toupper_idem. Qed.
Lemma stored_content x : stored x = content_of x.
Proof.
  unfold stored, content_of. assert (E : Z.max 0 (x_num x) = if x_num x <? 0 then 0 else x_num x) by (destruct (x_num x <? 0) eqn:E; bz; lia).
  rewrite E. reflexivity.
Qed.
Lemma in32_pow v : - 2 ^ 31 <= v < 2 ^ 31 <-> in32 v.
Proof. unfold in32, INT_MIN, INT_MAX. lia. Qed.
Lemma request_fits_ok x : request_fits x -> request_ok x /\ ztsPathCompatible (x_path x) = None.
Proof.
  intros ((N1 & N2 & N3) & T & S). split; [|exact N3].
  split; [exact N1|]. split; [apply Forall_forall; exact N2|]. split; [apply in32_pow, T|].
  apply Forall_forall. intros l Hl. destruct (S l Hl) as [S1 S2]. split; [|exact S2]. apply Forall_forall. intros v Hv. apply in32_pow. auto.
Qed.
Lemma name_words_of p : name_words p = words_of p.
Proof. unfold name_words, words_of. rewrite nlib by apply zlen_nonneg. reflexivity. Qed.
Lemma name_ok_parts p : name_ok p -> zlen p <= 392 /\ is_bytes p /\ ztsPathCompatible p = None.
Proof. intros (H1 & H2 & H3). split; [exact H1|]. split; [apply Forall_forall; exact H2|exact H3]. Qed.
Lemma family_spec a b : type_compatible a b = true <-> same_family a b.
Proof.
  unfold type_compatible, same_family. rewrite !orb_true_iff, !andb_true_iff, !Z.eqb_eq. tauto.
Qed.

(** Canonical names are the only ones that hold records. *)
Record Inv (c : cfg) (W : Z) (s : st) (f : file) : Prop := {
  iv_rep : exists own ch blocks, Rep c s own ch blocks /\
    (forall p ct, Live c ch p ct <-> records f (key p) = Some ct) /\
    (forall p ct, Dead c ch p ct -> trash f (key p) ct) /\
    dead_max c ch W /\ dead_le c ch (h_numDeletes (s_hdr s));
  iv_ren : 0 <= h_numRenames (s_hdr s);
  iv_cnt : exists ks, NoDup ks /\ (forall q, In q ks <-> records f q <> None) /\ Z.of_nat (length ks) = h_numRecords (s_hdr s) }.

Lemma set_same f q v : set f q v q = v.
Proof. unfold set. destruct (list_eq_dec Z.eq_dec q q); [reflexivity|congruence]. Qed.
Lemma set_other f q v q' : q' <> q -> set f q v q' = f q'.
Proof. unfold set. intros H. destruct (list_eq_dec Z.eq_dec q' q); [congruence|reflexivity]. Qed.

(** Counting names. *)
Definition cnt (f : list Z -> option content) (n : Z) : Prop :=
  exists ks, NoDup ks /\ (forall q, In q ks <-> f q <> None) /\ Z.of_nat (length ks) = n.
Lemma cnt_ext f g n : (forall q, f q <> None <-> g q <> None) -> cnt f n -> cnt g n.
Proof. intros H (ks & K1 & K2 & K3). exists ks. split; [exact K1|]. split; [|exact K3]. intros q. rewrite K2. apply H. Qed.
Lemma cnt_add f q v n : f q = None -> cnt f n -> cnt (set f q (Some v)) (n + 1).
Proof.
  intros H (ks & K1 & K2 & K3). exists (q :: ks). split; [|split].
  - constructor; [|exact K1]. rewrite K2. congruence.
  - intros q'. cbn [In]. destruct (list_eq_dec Z.eq_dec q' q) as [->|N].
    + rewrite set_same. split; [discriminate|auto].
    + rewrite set_other by exact N. rewrite <- K2. split; [intros [E|E]; [congruence|exact E]|auto].
  - cbn [length]. lia.
Qed.
Lemma cnt_over f q v w n : f q = Some w -> cnt f n -> cnt (set f q (Some v)) n.
Proof.
  intros H. apply cnt_ext. intros q'. destruct (list_eq_dec Z.eq_dec q' q) as [->|N]; [rewrite set_same|rewrite set_other by exact N; tauto]. split; congruence.
Qed.
Lemma cnt_del f q w n : f q = Some w -> cnt f n -> cnt (set f q None) (n - 1).
Proof.
  intros H (ks & K1 & K2 & K3). assert (IQ : In q ks) by (rewrite K2; congruence).
  apply in_split in IQ. destruct IQ as (l1 & l2 & ->). apply NoDup_remove in K1. destruct K1 as [N1 N2].
  exists (l1 ++ l2). split; [exact N1|]. split; [|rewrite app_length in *; cbn [length] in K3; lia].
  intros q'. destruct (list_eq_dec Z.eq_dec q' q) as [->|N].
  - rewrite set_same. split; [intros Q; exfalso; exact (N2 Q)|congruence].
  - rewrite set_other by exact N. rewrite <- K2. rewrite !in_app_iff. cbn [In]. split; [tauto|intros [Q|[Q|Q]]; [auto|congruence|auto]].
Qed.
Lemma cnt_keep f q n : f q = None -> cnt f n -> cnt (set f q None) n.
Proof.
  intros H. apply cnt_ext. intros q'. destruct (list_eq_dec Z.eq_dec q' q) as [->|N]; [rewrite set_same|rewrite set_other by exact N; tauto]. split; congruence.
Qed.

Lemma to_nul_id p : ~ In 0 p -> to_nul p = p.
Proof.
  induction p as [|a t IH]; intros H; [reflexivity|]. cbn [to_nul]. rewrite (proj2 (Z.eqb_neq a 0)) by (intros ->; apply H; left; reflexivity).
  f_equal. apply IH. intros Q. apply H. right. exact Q.
Qed.
Lemma slashes_id p : forall n, count_occ Z.eq_dec p 47 = n -> (p = [] \/ last p 0 = 47) -> slashes n p = p.
Proof.
  induction p as [|a t IH]; intros n HC HL; cbn [count_occ] in HC; [subst n; reflexivity|].
  assert (HT : t = [] \/ last t 0 = 47) by (destruct t as [|b t]; [left; reflexivity|right; destruct HL as [HL|HL]; [discriminate|exact HL]]).
  destruct (Z.eq_dec a 47) as [->|N].
  - subst n. cbn [slashes]. change (47 =? 47) with true. cbv iota. f_equal. apply IH; [reflexivity|exact HT].
  - destruct n as [|n].
    + exfalso. destruct HT as [->|HT].
      * destruct HL as [HL|HL]; [discriminate|]. cbn in HL. congruence.
      * clear - HC HT. induction t as [|b t IH]; [cbn in HT; lia|]. cbn [count_occ] in HC. destruct (Z.eq_dec b 47) as [E|E]; [discriminate|].
        apply IH; [exact HC|]. destruct t as [|d t]; [cbn in HT; congruence|exact HT].
    + cbn [slashes]. rewrite (proj2 (Z.eqb_neq a 47)) by exact N. f_equal. apply IH; assumption.
Qed.
Lemma copy_path_id p : proper p -> copy_path p = p.
Proof.
  intros (P1 & P2 & P3). unfold copy_path. rewrite to_nul_id by exact P3. destruct p as [|a t]; [discriminate|].
  assert (E : no_blanks (a :: t) = a :: t).
  { unfold no_blanks. rewrite (app_removelast_last 0 (l := a :: t)) at 1 by discriminate. rewrite P2, rev_app_distr. cbn [rev app]. reflexivity. }
  rewrite E. apply slashes_id; [exact P1|right; exact P2].
Qed.
Lemma counts_eq h h' : counts h' = counts h -> h_numRecords h' = h_numRecords h /\ h_numDeletes h' = h_numDeletes h /\ h_numRenames h' = h_numRenames h.
Proof. unfold counts. intros H. inversion H. auto. Qed.
Lemma counts_plus h h' r d n : counts h' = plus (counts h) r d n ->
  h_numRecords h' = h_numRecords h + r /\ h_numDeletes h' = h_numDeletes h + d /\ h_numRenames h' = h_numRenames h + n.
Proof. unfold counts, plus. intros H. inversion H. auto. Qed.

Lemma same_file_inv c W s s' f : same_file s s' -> Inv c W s f -> Inv c W s' f.
Proof.
  intros (E1 & E2 & E3 & E4) [(own & ch & blocks & RP & R) I2 I3]. split; rewrite ?E4; auto.
  exists own, ch, blocks. split; [|exact R]. destruct RP. split; rewrite ?E1, ?E2, ?E4; auto.
Qed.
Lemma inv_reopen c W s f : Inv c W s f -> Inv c W (reopen s) f.
Proof.
  intros [(own & ch & blocks & RP & R) I2 I3]. pose proof (rp_hdr _ _ _ _ _ RP) as E. unfold reopen. split; cbn [s_hdr]; rewrite ?E; auto.
  exists own, ch, blocks. split; [|exact R]. destruct RP. split; cbn [s_disk s_hdr s_dhdr]; rewrite ?E; auto.
Qed.

Lemma classic_pos i k i' k' : pos_lt i k i' k' \/ (i = i' /\ k = k') \/ pos_lt i' k' i k.
Proof. unfold pos_lt. lia. Qed.
Lemma live_or_not f p : (exists ct, records f (key p) = Some ct) \/ records f (key p) = None.
Proof. destruct (records f (key p)); eauto. Qed.

Section STEP.
Variables (c : cfg) (W : Z) (s : st) (f : file).
Hypothesis WF : wf_cfg c.
Hypothesis IV : Inv c W s f.

Definition images (o : op) (s' : st) : Prop :=
  allpre (Readable c (fun q => In q (names_of o)) (fun p ct => records f (key p) = Some ct)) s s'.
(** All images on the way, and what follows. *)
Definition outcome (o : op) (r : resp) (s' : st) : Prop :=
  exec c o s = Some (r, s') /\ (o <> Reopen -> images o s') /\ exists f', step f o r f' /\ Inv c W s' f'.

Lemma GI_out own ch blocks (K : list Z -> Prop) o s' : Rep c s own ch blocks -> (forall p ct, Live c ch p ct <-> records f (key p) = Some ct) ->
  (forall q, K q -> In q (names_of o)) ->
  allpre (GI c (h_fileSize (s_hdr s)) (Live c ch) K) s s' ->
  o <> Reopen -> images o s'.
Proof.
  intros RP LV HK (ws & A1 & A2 & A3) _. exists ws. split; [exact A1|]. split; [exact A2|]. intros k. eapply GI_readable; [exact WF|apply A3|exact HK|].
  intros p ct _ H. apply LV, H.
Qed.
Lemma same_out o s' : same_file s s' -> o <> Reopen -> images o s'.
Proof.
  intros SF. destruct IV as [(own & ch & blocks & RP & LV & _) _ _].
  apply (GI_out own ch blocks (fun _ => False) o s' RP LV); [tauto|]. apply allpre_refl; [|exact SF]. apply (rep_good c s own ch blocks WF RP).
Qed.

Lemma out_read p : name_ok p -> exists r s', outcome (Read p) r s'.
Proof.
  intros (N1 & N2 & N3)%name_ok_parts. destruct IV as [(own & ch & blocks & RP & LV & DD) I2 I3].
  destruct (live_or_not f p) as [[ct HL]|HN].
  - destruct (rep_read c s own ch blocks p ct WF RP N1) as (s' & E & SF); [apply LV, HL|].
    exists (Data (Some ct)), s'. split; [cbn [exec]; rewrite E; reflexivity|]. split; [apply same_out, SF|]. exists f. split; [|eapply same_file_inv; eauto].
    rewrite <- HL. constructor.
  - destruct (rep_read_none c s own ch blocks p WF RP N1 N3) as (s' & E & SF); [intros ct Q; apply LV in Q; congruence|].
    exists (Data None), s'. split; [cbn [exec]; rewrite E; reflexivity|]. split; [apply same_out, SF|]. exists f. split; [|eapply same_file_inv; eauto].
    rewrite <- HN. constructor.
Qed.

Lemma out_write now prog x : request_fits x -> W <= name_words (x_path x) ->
  (forall ct, records f (canon (x_path x)) = Some ct -> odd_request x <= odd_record ct) -> exists r s', outcome (Write now prog x) r s'.
Proof.
  intros RF HW HO. destruct (request_fits_ok x RF) as (RQ & HT). rewrite name_words_of in HW. pose proof RQ as (Q1 & _).
  destruct IV as [(own & ch & blocks & RP & LV & DD & DM & DL) I2 I3].
  assert (SS : forall h hash, zhash (c_detune c) (c_maxHash c) (x_path x) = Ok (h, hash) -> safe_slot c (ch h) (zlen (x_path x))).
  { intros h hash HP. destruct (zhash_ok c (x_path x) WF) as (h1 & hash1 & HP1 & Hh & _). assert (h1 = h) by congruence. subst h1.
    eapply dead_max_safe; eauto. apply (rp_dsk _ _ _ _ _ RP). }
  destruct (zhash_ok c (x_path x) WF) as (h & hash & HP & Hh & _).
  assert (EV : forall ct, Live c ch (x_path x) ct -> odd_headers x <= odd_content ct) by (intros ct Q; apply HO, LV, Q).
  pose proof (run_zwriteInternal c now prog x s own ch blocks WF RP RQ EV HT SS) as R. unfold run in R.
  assert (RI : exists b s1, zreadInfo c (x_path x) 0 s = OK b s1 /\ (b = true <-> exists ct, records f (key (x_path x)) = Some ct)).
  { destruct (rep_lookup c s own ch blocks (x_path x) h hash WF RP HP Hh) as [[ct LVx]|NLV].
    - destruct (rep_live_at c s own ch blocks (x_path x) ct WF RP LVx) as (h' & hash' & i & k & a & es & e & HP' & _ & Hi & Hk & HV & HK & HC).
      rewrite HP in HP'. assert (h' = h) by congruence. assert (hash' = hash) by congruence. subst h' hash'.
      destruct (rep_readInfo c s own ch blocks (x_path x) h hash i k a es e WF RP Q1 HP Hh Hi Hk HK HV) as (s1 & i0 & E1 & _).
      exists true, s1. split; [exact E1|]. split; [intros _; exists ct; apply LV, LVx|reflexivity].
    - destruct (rep_readInfo_none c s own ch blocks (x_path x) h hash WF RP Q1 HP Hh HT NLV) as (s1 & E1 & _).
      exists false, s1. split; [exact E1|]. split; [discriminate|]. intros [ct Q]. exfalso. apply LV in Q. destruct Q as (h1 & i1 & k1 & e1 & L1 & L2 & L3 & L4 & L5).
      pose proof (entry_chain c s own ch blocks RP (x_path x) h hash h1 i1 k1 e1 HP L1 L2 L4). subst h1. exact (NLV _ _ _ L2 L4 L3). }
  destruct RI as (b & s1 & RI & HB).
  pose proof (fun s' => count_write c now prog x s s' b s1 RI) as CW.
  destruct (zwriteInternal c now prog x s) as [[] s'|s'|] eqn:EX; [| |contradiction].
  - destruct R as [AP [TC (own' & ch' & blocks' & RP' & LV' & DD' & DM' & DL' & _)]]. destruct (CW s') as [CW1 _]. specialize (CW1 eq_refl).
    exists Done, s'. split; [cbn [exec]; rewrite EX; reflexivity|]. split; [eapply GI_out; [exact RP|exact LV| |exact AP]; intros q ->; left; reflexivity|].
    exists (mkfile (set (records f) (canon (x_path x)) (Some (stored x))) (trash f)). split.
    { constructor. intros ct HC. apply family_spec, TC, LV, HC. }
    destruct I3 as (ks & K1 & K2 & K3). assert (CN : cnt (records f) (h_numRecords (s_hdr s))) by (exists ks; auto).
    assert (LE : forall p ct, Live c ch' p ct <-> set (records f) (canon (x_path x)) (Some (stored x)) (key p) = Some ct).
    { intros p ct. rewrite LV', stored_content. change (canon (x_path x)) with (key (x_path x)). destruct (list_eq_dec Z.eq_dec (key p) (key (x_path x))) as [E|E].
      - rewrite E, set_same. split; [intros [[_ ->]|[Q _]]; [reflexivity|congruence]|intros Q; left; split; congruence].
      - rewrite set_other by exact E. rewrite <- LV. tauto. }
    destruct b.
    + apply counts_eq in CW1. destruct CW1 as (C1 & C2 & C3). destruct (proj1 HB eq_refl) as [ct0 HC0]. split.
      * exists own', ch', blocks'. cbn [records trash]. rewrite C2. auto 10.
      * lia.
      * cbn [records]. rewrite C1. eapply cnt_over; eauto.
    + apply counts_plus in CW1. destruct CW1 as (C1 & C2 & C3). split.
      * exists own', ch', blocks'. cbn [records trash]. rewrite C2, Z.add_0_r. auto 10.
      * lia.
      * cbn [records]. rewrite C1. apply cnt_add; [|exact CN]. change (canon (x_path x)) with (key (x_path x)). destruct (records f (key (x_path x))) eqn:E; [|reflexivity]. exfalso.
        assert (false = true) by (apply HB; eauto). discriminate.
  - destruct R as [AP [(ct & LVx & TC) (own' & ch' & blocks' & RP' & LV' & DD' & DM' & DL' & _)]].
    assert (b = true) by (apply HB; exists ct; apply LV, LVx). subst b.
    destruct (CW s') as [_ CW1]. specialize (CW1 eq_refl eq_refl). apply counts_eq in CW1. destruct CW1 as (C1 & C2 & C3).
    exists Refused, s'. split; [cbn [exec]; rewrite EX; reflexivity|]. split; [eapply GI_out; [exact RP|exact LV| |exact AP]; intros q ->; left; reflexivity|].
    exists f. split; [apply (step_write_refused f now prog x ct); [apply LV, LVx|intros Q; apply family_spec in Q; congruence]|]. split.
    + exists own', ch', blocks'. rewrite C2. split; [exact RP'|]. split; [intros p ct'; rewrite LV'; apply LV|]. auto.
    + lia.
    + rewrite C1. exact I3.
Qed.

Lemma out_delete p : name_ok p -> name_words p <= W -> exists r s', outcome (Delete p) r s'.
Proof.
  intros (N1 & N2 & N3)%name_ok_parts HW. rewrite name_words_of in HW. destruct IV as [(own & ch & blocks & RP & LV & DD & DM & DL) I2 I3].
  pose proof (run_zdelete c s own ch blocks p WF RP N1 N3) as R. unfold run in R.
  destruct (zdeleteInternal c p false s) as [b s'|s'|] eqn:EX; [|exfalso; apply R|contradiction].
  destruct R as (AP & HB & _ & own' & ch' & blocks' & RP' & LV' & DD' & FD & DM' & DL' & _).
  apply count_delete in EX as CT. exists (Found b), s'. split; [cbn [exec]; rewrite EX; reflexivity|].
  split; [eapply GI_out; [exact RP|exact LV| |exact AP]; intros q ->; left; reflexivity|]. destruct b.
  - destruct (proj1 HB eq_refl) as [ct LVp]. apply LV in LVp. apply counts_plus in CT. destruct CT as (C1 & C2 & C3).
    eexists. split; [apply (step_delete f p ct); exact LVp|]. split.
    + exists own', ch', blocks'. cbn [records trash]. split; [exact RP'|]. split; [|split; [|split; [apply DM'; assumption|rewrite C2; exact (DL' _ DL)]]].
      * intros q ct'. rewrite LV'. change (canon p) with (key p). destruct (list_eq_dec Z.eq_dec (key q) (key p)) as [E|E].
        { rewrite E, set_same. split; [intros [Q _]; congruence|discriminate]. }
        { rewrite set_other by exact E. rewrite <- LV. tauto. }
      * intros q ct' Q. destruct (DD' q ct' Q) as [Q1|[Q1 Q2]]; [left; apply DD, Q1|right]. split; [exact Q1|]. apply LV in Q2. congruence.
    + lia.
    + cbn [records]. rewrite C1. replace (h_numRecords (s_hdr s) + -1) with (h_numRecords (s_hdr s) - 1) by lia. eapply cnt_del; eauto.
  - assert (NR : records f (key p) = None).
    { destruct (records f (key p)) as [ct|] eqn:E; [|reflexivity]. apply LV in E. assert (false = true) by (apply HB; eauto). discriminate. }
    apply counts_eq in CT. destruct CT as (C1 & C2 & C3). exists f. split; [constructor; exact NR|]. split.
    + exists own', ch', blocks'. split; [exact RP'|]. split; [|split; [|split; [apply DM'; assumption|rewrite C2; exact (DL' _ DL)]]].
      * intros q ct'. rewrite LV', LV. split; [tauto|]. intros Q. split; [|exact Q]. intros E. rewrite E in Q. congruence.
      * intros q ct' Q. destruct (DD' q ct' Q) as [Q1|[Q1 Q2]]; [apply DD, Q1|]. apply LV in Q2. congruence.
    + lia.
    + rewrite C1. exact I3.
Qed.

Lemma FirstDead_Dead ch p ct : FirstDead c ch p ct -> Dead c ch p ct.
Proof. intros (h & i & k & e & H1 & H2 & H3 & H4 & H5 & _). exists h, i, k, e. auto. Qed.
Lemma FirstDead_fun own ch blocks p ct ct' : Rep c s own ch blocks -> FirstDead c ch p ct -> FirstDead c ch p ct' -> ct = ct'.
Proof.
  intros RP (h & i & k & e & H1 & H2 & H3 & H4 & H5 & H6) (h' & i' & k' & e' & G1 & G2 & G3 & G4 & G5 & G6).
  destruct (zhash_ok c p WF) as (h0 & hash & HP & _).
  pose proof (entry_chain c s own ch blocks RP p h0 hash h i k e HP H1 H2 H4).
  pose proof (entry_chain c s own ch blocks RP p h0 hash h' i' k' e' HP G1 G2 G4). subst h h'.
  destruct (pos_eq_dec (h0, i, k) (h0, i', k')) as [E|E]; [congruence|].
  destruct (classic_pos i k i' k') as [L|[L|L]]; [exfalso; exact (G6 _ _ _ L H2 H4 H3)| |exfalso; exact (H6 _ _ _ L G2 G4 G3)].
  exfalso. apply E. destruct L; subst; reflexivity.
Qed.

Lemma out_undelete p : name_ok p -> records f (canon p) = None -> exists r s', outcome (Undelete p) r s'.
Proof.
  intros (N1 & N2 & N3)%name_ok_parts HN. change (canon p) with (key p) in HN. destruct IV as [(own & ch & blocks & RP & LV & DD & DM & DL) I2 I3].
  assert (NL : forall ct, ~ Live c ch p ct) by (intros ct Q; apply LV in Q; congruence).
  pose proof (run_zundelete c s own ch blocks p WF RP N1 NL) as R. unfold run in R.
  destruct (zdeleteInternal c p true s) as [b s'|s'|] eqn:EX; [|exfalso; apply R|contradiction].
  destruct R as (AP & HB & own' & ch' & blocks' & RP' & LV' & FD & DD' & DM' & DL').
  apply count_delete in EX as CT. exists (Found b), s'. split; [cbn [exec]; rewrite EX; reflexivity|].
  split; [eapply GI_out; [exact RP|exact LV| |exact AP]; intros q ->; left; reflexivity|]. destruct b.
  - destruct (FD eq_refl) as [ct F]. apply counts_plus in CT. destruct CT as (C1 & C2 & C3).
    eexists. split; [apply (step_undelete f p ct HN); apply DD, FirstDead_Dead, F|]. split.
    + exists own', ch', blocks'. cbn [records trash]. split; [exact RP'|]. split; [|split; [|split; [apply DM'; assumption|rewrite C2; exact (DL' _ DL)]]].
      * intros q ct'. rewrite LV'. change (canon p) with (key p). destruct (list_eq_dec Z.eq_dec (key q) (key p)) as [E|E].
        { rewrite E, set_same. split.
          - intros [Q|(_ & _ & Q)]; [apply LV in Q; congruence|]. f_equal. eapply FirstDead_fun; eauto.
          - intros Q. right. assert (ct' = ct) by congruence. subst ct'. auto. }
        { rewrite set_other by exact E. rewrite <- LV. split; [intros [Q|(_ & Q & _)]; [exact Q|congruence]|auto]. }
      * intros q ct' Q. apply DD, DD', Q.
    + lia.
    + cbn [records]. rewrite C1. apply cnt_add; [exact HN|exact I3].
  - apply counts_eq in CT. destruct CT as (C1 & C2 & C3). exists f. split; [constructor|]. split.
    + exists own', ch', blocks'. split; [exact RP'|]. split; [|split; [|split; [apply DM'; assumption|rewrite C2; exact (DL' _ DL)]]].
      * intros q ct'. rewrite LV', LV. split; [intros [Q|(Q & _)]; [exact Q|discriminate]|auto].
      * intros q ct' Q. apply DD, DD', Q.
    + lia.
    + rewrite C1. exact I3.
Qed.

Lemma out_rename old new : name_ok old -> name_ok new -> proper new -> canon old <> canon new -> W <= name_words new ->
  (records f (canon new) <> None -> name_words new <= W) -> exists r s', outcome (Rename old new) r s'.
Proof.
  intros (O1 & O2 & O3)%name_ok_parts (N1 & N2 & N3)%name_ok_parts CPY%copy_path_id NE HW HW2. change (canon old) with (key old) in *. change (canon new) with (key new) in *.
  rewrite name_words_of in *. destruct IV as [(own & ch & blocks & RP & LV & DD & DM & DL) I2 I3].
  assert (DM0 : dead_max c ch (words_of new)) by (intros h i k e Q1 Q2 Q3; specialize (DM h i k e Q1 Q2 Q3); lia).
  pose proof (run_zrename c s own ch blocks old new WF RP O1 N1 N2 CPY N3 DM0) as R. unfold run in R.
  destruct (zrename c old new s) as [b s'|s'|] eqn:EX; [|exfalso; apply R|contradiction].
  destruct R as (AP & HB & own' & ch' & blocks' & RP' & LV' & DD' & DM' & DL').
  assert (CK : exists fn s1, zcheckInternal c new 1 s = OK fn s1 /\ (fn = true <-> records f (key new) <> None)).
  { destruct (zhash_ok c new WF) as (h & hash & HP & Hh & _).
    destruct (rep_lookup c s own ch blocks new h hash WF RP HP Hh) as [[ct LVx]|NLV].
    - destruct (rep_live_at c s own ch blocks new ct WF RP LVx) as (h' & hash' & i & k & a & es & e & HP' & _ & Hi & Hk & HV & HK & HC).
      rewrite HP in HP'. assert (h' = h) by congruence. assert (hash' = hash) by congruence. subst h' hash'.
      destruct (rep_check c s own ch blocks new h hash i k a es e WF RP N1 HP Hh Hi Hk HK HV) as (s1 & E1 & _).
      exists true, s1. split; [exact E1|]. apply LV in LVx. split; congruence.
    - destruct (rep_check_none c s own ch blocks new h hash WF RP N1 HP Hh NLV) as (s1 & E1 & _).
      exists false, s1. split; [exact E1|]. split; [discriminate|]. intros Q. exfalso. destruct (records f (key new)) as [ct|] eqn:E; [|congruence].
      apply LV in E. destruct E as (h1 & i1 & k1 & e1 & L1 & L2 & L3 & L4 & L5).
      pose proof (entry_chain c s own ch blocks RP new h hash h1 i1 k1 e1 HP L1 L2 L4). subst h1. exact (NLV _ _ _ L2 L4 L3). }
  destruct CK as (fn & s1 & CK & HF). pose proof (count_rename c old new s b s' fn s1 CK EX) as CT. apply counts_plus in CT. destruct CT as (C1 & C2 & C3).
  assert (NLN : fn = false -> forall ct, ~ Live c ch new ct).
  { intros -> ct Q. apply LV in Q. assert (false = true) by (apply HF; congruence). discriminate. }
  assert (DL1 : dead_le c ch' (h_numDeletes (s_hdr s'))).
  { rewrite C2. destruct (DL' _ DL) as [D1 D2]. destruct fn; [exact D2|]. rewrite Z.add_0_r. auto. }
  assert (DM1 : dead_max c ch' W).
  { apply DM'; [exact DM|]. destruct fn; [left; apply HW2, HF; reflexivity|right; auto]. }
  assert (DD1 : forall q ct, Dead c ch' q ct -> trash f (key q) ct \/ (key q = key new /\ records f (key q) = Some ct)).
  { intros q ct Q. destruct (DD' q ct Q) as [Q1|[Q1 Q2]]; [left; apply DD, Q1|right]. split; [exact Q1|]. apply LV in Q2. congruence. }
  assert (CN : cnt (set (records f) (key new) None) (h_numRecords (s_hdr s) + (if fn then -1 else 0))).
  { destruct fn.
    - assert (NN : records f (key new) <> None) by (apply HF; reflexivity). destruct (records f (key new)) as [ct|] eqn:E; [|congruence].
      replace (h_numRecords (s_hdr s) + -1) with (h_numRecords (s_hdr s) - 1) by lia. eapply cnt_del; eauto.
    - rewrite Z.add_0_r. apply cnt_keep; [|exact I3]. destruct (records f (key new)) as [ct|] eqn:E; [|reflexivity]. apply LV in E. exfalso. eapply NLN; eauto. }
  exists (Found b), s'. split; [cbn [exec]; rewrite EX; reflexivity|]. split.
  { intros _. destruct AP as (ws & A1 & A2 & A3). exists ws. split; [exact A1|]. split; [exact A2|]. intros k p ct st Hp HK HL E1 E2. apply (A3 k p ct st); auto.
    - intros [Q|Q]; apply HK; cbn [names_of In]; [left|right; left]; exact (eq_sym Q).
    - apply LV, HL. }
  destruct b.
  - destruct (proj1 HB eq_refl) as [_ [ct LVo]]. pose proof (proj1 (LV _ _) LVo) as HO.
    eexists. split; [apply (step_rename f old new ct NE HO)|]. split; [|lia|].
    + exists own', ch', blocks'. cbn [records trash]. split; [exact RP'|]. split; [|split; [|split; assumption]].
      * intros q ct'. rewrite LV'. change (canon new) with (key new). change (canon old) with (key old). destruct (list_eq_dec Z.eq_dec (key q) (key new)) as [E|E].
        { rewrite E, set_same. split.
          - intros [(_ & _ & Q)|[(Q & _)|(Q & _)]]; [apply LV in Q; congruence|congruence|congruence].
          - intros Q. left. split; [reflexivity|]. split; [reflexivity|]. apply LV. congruence. }
        { rewrite set_other by exact E. destruct (list_eq_dec Z.eq_dec (key q) (key old)) as [E2|E2].
          - rewrite E2, set_same. split; [|discriminate]. intros [(Q & _)|[(_ & Q & _)|(_ & Q & _)]]; congruence.
          - rewrite set_other by exact E2. rewrite <- LV. split; [intros [(Q & _)|[(_ & _ & Q)|(_ & Q & _)]]; congruence || exact Q|intros Q; right; left; auto]. }
      * intros q ct' Q. apply DD1, Q.
    + cbn [records]. change (canon new) with (key new). change (canon old) with (key old). rewrite C1.
      assert (CN2 : cnt (set (set (records f) (key new) None) (key old) None) (h_numRecords (s_hdr s) + (if fn then -1 else 0) - 1)).
      { eapply cnt_del; [|exact CN]. rewrite set_other by exact NE. exact HO. }
      assert (CN3 : cnt (set (set (set (records f) (key new) None) (key old) None) (key new) (Some ct)) (h_numRecords (s_hdr s) + (if fn then -1 else 0) - 1 + 1)).
      { apply cnt_add; [|exact CN2]. rewrite set_other by congruence. apply set_same. }
      replace (h_numRecords (s_hdr s) + (if fn then -1 else 0) - 1 + 1) with (h_numRecords (s_hdr s) + (if fn then -1 else 0)) in CN3 by lia.
      eapply cnt_ext; [|exact CN3]. intros q. unfold set. destruct (list_eq_dec Z.eq_dec q (key new)); [tauto|]. destruct (list_eq_dec Z.eq_dec q (key old)); tauto.
  - assert (NO : records f (key old) = None).
    { destruct (records f (key old)) as [ct|] eqn:E; [|reflexivity]. apply LV in E. assert (false = true) by (apply HB; eauto). discriminate. }
    eexists. split; [apply (step_rename_none f old new NE NO)|]. split; [|lia|].
    + exists own', ch', blocks'. cbn [records trash]. split; [exact RP'|]. split; [|split; [|split; assumption]].
      * intros q ct'. rewrite LV'. change (canon new) with (key new). destruct (list_eq_dec Z.eq_dec (key q) (key new)) as [E|E].
        { rewrite E, set_same. split; [|discriminate]. intros [(_ & Q & _)|[(Q & _)|(Q & _)]]; congruence. }
        { rewrite set_other by exact E. rewrite <- LV. split; [intros [(Q & _)|[(_ & _ & Q)|(_ & _ & Q)]]; congruence || exact Q|intros Q; right; right; auto]. }
      * intros q ct' Q. apply DD1, Q.
    + cbn [records]. change (canon new) with (key new). rewrite C1. exact CN.
Qed.

Lemma drop_blanks_nb t : forall x, last (x :: t) 0 <> 32 -> drop_blanks (x :: t) <> [].
Proof.
  induction t as [|y t IH]; intros x H; cbn [drop_blanks].
  - cbn in H. rewrite (proj2 (Z.eqb_neq x 32)) by exact H. discriminate.
  - destruct (x =? 32); [|discriminate]. apply IH. exact H.
Qed.
Lemma fort_to_c_nb p : last p 0 <> 32 -> fort_to_c p = p.
Proof.
  intros H. unfold fort_to_c. destruct p as [|x t] eqn:E; [reflexivity|]. rewrite <- E in *.
  destruct (exists_last (l := p)) as (l & y & EQ); [rewrite E; discriminate|]. rewrite EQ in H |- *. rewrite last_last in H. rewrite rev_app_distr. cbn [rev app].
  destruct (Z.eq_dec y 32); [congruence|]. destruct y as [|y|y]; try reflexivity. destruct y as [y|y|]; try reflexivity. destruct y as [y|y|]; try reflexivity.
  destruct y as [y|y|]; try reflexivity. destruct y as [y|y|]; try reflexivity. destruct y as [y|y|]; try reflexivity. destruct y; try reflexivity. congruence.
Qed.

Lemma out_catalogue : exists r s', outcome Catalogue r s'.
Proof.
  destruct IV as [(own & ch & blocks & RP & LV & DD & DM & DL) I2 I3]. destruct I3 as (ks & K1 & K2 & K3).
  destruct (rep_catalog c s own ch blocks WF RP I2) as (vl & E & ND & V1 & V2).
  { eapply dead_le_nonneg; eauto. }
  { exists ks. split; [|lia]. intros p ct Q. apply LV in Q. apply K2. congruence. }
  exists (Names (map name_of vl)), s. split; [cbn [exec]; rewrite E; reflexivity|]. split; [apply same_out; repeat split|].
  exists f. split; [|exact IV]. constructor. intros NB. rewrite map_map.
  assert (EN : forall e, In e vl -> canon (name_of e) = key (e_path e)).
  { intros e He. destruct (V1 e He) as (h & i & k & Hh & HE & HV). unfold name_of. rewrite fort_to_c_nb; [reflexivity|]. apply NB. change (canon (e_path e)) with (key (e_path e)).
    rewrite (proj1 (LV (e_path e) (e_ct e))); [discriminate|]. exists h, i, k, e. auto. }
  assert (EM : map (fun x => canon (name_of x)) vl = map (fun e => key (e_path e)) vl) by (apply map_ext_in; exact EN).
  rewrite EM. split; [exact ND|]. intros p. rewrite in_map_iff. split.
  - intros (e & EK & He). destruct (V1 e He) as (h & i & k & Hh & HE & HV). change (canon p) with (key p) in *. rewrite (proj1 (LV p (e_ct e))); [discriminate|]. exists h, i, k, e. auto.
  - intros Q. change (canon p) with (key p) in *. destruct (records f (key p)) as [ct|] eqn:EC; [|congruence]. apply LV in EC. destruct EC as (h & i & k & e & Hh & HE & HV & EK & _).
    exists e. split; [exact EK|eapply V2; eauto].
Qed.

Lemma out_all o : permitted W f o -> exists r s', outcome o r s'.
Proof.
  destruct o as [now prog x|p|p|p|old new| |]; cbn [permitted]; intros H.
  - apply out_write; apply H.
  - apply out_read, H.
  - apply out_delete; apply H.
  - apply out_undelete; apply H.
  - destruct H as (H1 & H2 & H3 & H4 & H5 & H6). apply out_rename; assumption.
  - apply out_catalogue.
  - exists Done, (reopen s). split; [reflexivity|]. split; [congruence|exists f; split; [constructor|apply inv_reopen, IV]].
Qed.
End STEP.

(** ** Crashes *)
Lemma crash_readable c W s f o r s' k p ct : wf_cfg c -> Inv c W s f -> outcome c W s f o r s' ->
  name_ok p -> ~ In (canon p) (names_of o) -> records f (canon p) = Some ct ->
  exists s1, zreadInternal c p (crash s s' k) = OK (Some ct) s1.
Proof.
  intros WF IV (EX & IM & _) (N1 & N2 & N3)%name_ok_parts NI HR. change (canon p) with (key p) in *.
  assert (R : Readable c (fun q => In q (names_of o)) (fun p ct => records f (key p) = Some ct)
                (fold_left apply_wr (firstn k (issued s s')) (s_disk s, s_dhdr s))).
  { assert (D : o = Reopen \/ o <> Reopen) by (destruct o; [right; discriminate..|left; reflexivity]). destruct D as [->|D].
    - cbn [exec] in EX. assert (s' = reopen s) by congruence. subst s'. unfold issued. cbn [reopen s_log]. rewrite skipn_nil, firstn_nil. cbn [fold_left].
      destruct IV as [(own & ch & blocks & RP & LV & _) _ _]. eapply GI_readable; [exact WF|apply (rep_good c s own ch blocks WF RP (fun _ => False))|tauto|]. intros q ct' _ Q. apply LV, Q.
    - destruct (IM D) as (ws & A1 & A2 & A3). unfold issued. rewrite A1, skipn_app, skipn_all, Nat.sub_diag. exact (A3 k). }
  destruct (R p ct (crash s s' k)) as (s1 & E & _); auto. exists s1. exact E.
Qed.

(** ** The empty file *)
Definition own0 (c : cfg) (x : Z) : tag :=
  if c_firstBin c + c_binSize c * c_bpb c + 1 <=? x then TFree
  else if x =? c_firstBin c + c_binSize c * c_bpb c then TLink
  else if c_firstBin c <=? x then TSpare
  else if (c_hashStart c <=? x) && (x <? c_hashStart c + c_maxHash c) then THash
  else TSys.

Lemma inv_new c W : wf_cfg c -> c_hashStart c + c_maxHash c <= c_firstBin c -> Inv c W (new_file c) empty_file.
Proof.
  intros (W1 & W2 & W3 & W4 & W5) HF.
  assert (NX : forall x, x < c_firstBin c + c_binSize c * c_bpb c + 1 -> s_disk (new_file c) x = 0).
  { intros x Hx. unfold new_file. cbn [s_disk h_fileSize]. apply put_out. left. exact Hx. }
  assert (BB : 58 <= c_binSize c * c_bpb c) by nia.
  assert (NE : forall h i k e, entry_at (fun _ => []) (h, i, k) = Some e -> False) by (intros h i k e Q; unfold entry_at in Q; destruct i; discriminate).
  split.
  - exists (own0 c), (fun _ => []), [c_firstBin c]. split; [|split; [|split; [|split]]].
    + split; try (intros; exfalso; eapply NE; eassumption).
      * split.
        -- intros h Hh. split; [|cbn [head_addr]; apply NX; lia]. unfold own0. rewrite leb_f by lia. rewrite eqb_f by lia. rewrite leb_f by lia. rewrite leb_t by lia. rewrite ltb_t by lia. reflexivity.
        -- intros h i a es _ Q. destruct i; discriminate.
        -- intros h i k e _ Q. exfalso. eapply NE; eauto.
      * split; cbn [new_file s_hdr s_disk h_fileSize h_binsRemain h_nextBin].
        -- nia.
        -- intros x Hx. unfold own0. rewrite leb_t by lia. reflexivity.
        -- lia.
        -- exists [], (c_firstBin c). split; [reflexivity|]. lia.
        -- reflexivity.
        -- cbn [length]. nia.
        -- intros x Hx. split; [|apply NX; nia]. unfold own0. rewrite leb_f by nia. rewrite eqb_f by nia. rewrite leb_t by lia. reflexivity.
        -- intros j b Hj. destruct j as [|[|j]]; cbn [nth_error] in Hj; try discriminate. inversion Hj; subst b. split; [lia|]. split.
           ++ unfold own0. rewrite leb_f by nia. rewrite eqb_t by nia. reflexivity.
           ++ cbn [nth]. apply NX. nia.
        -- intros h Hh. cbn [length]. lia.
        -- intros j b m Hj Hm [Q|Q]; [|lia]. cbn [length] in Q. lia.
        -- intros h i a es _ Q. destruct i; discriminate.
        -- lia.
      * reflexivity.
      * intros h i a _ Q. destruct i; discriminate.
    + intros p ct. cbn. split; [|discriminate]. intros (h & i & k & e & _ & Q & _). exfalso. eapply NE; eauto.
    + intros p ct (h & i & k & e & _ & Q & _). exfalso. eapply NE; eauto.
    + intros h i k e _ Q. exfalso. eapply NE; eauto.
    + exists []. split; [constructor|]. split; [|cbn; lia]. intros h i k e _ Q. exfalso. eapply NE; eauto.
  - cbn. lia.
  - exists []. split; [constructor|]. split; [|reflexivity]. intros q. cbn. split; [tauto|congruence].
Qed.

Lemma wf_new hs maxHash binSize bpb detune grow : 22 <= hs -> 2 <= maxHash -> (detune = true -> 4 <= maxHash) -> 58 <= binSize <= 1000 -> 1 <= bpb ->
  wf_cfg (new_cfg hs maxHash binSize bpb detune grow).
Proof. intros. unfold wf_cfg, new_cfg. cbn [c_maxHash c_binSize c_bpb c_hashStart c_detune]. repeat split; auto; lia. Qed.

(** ** Histories *)
Lemma conforms_inv c W : wf_cfg c -> forall ops s f, Inv c W s f -> conforms c W ops s f.
Proof.
  intros WF. induction ops as [|o t IH]; intros s f IV; [exact I|]. cbn [conforms]. intros HP.
  destruct (out_all c W s f WF IV o HP) as (r & s' & EX & _ & f' & ST & IV'). exists r, s', f'. auto.
Qed.
