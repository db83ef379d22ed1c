(** * zdelete and zundelete. *)
From Coq Require Import ZArith List Lia Bool Arith.
From Verif Require Import Base PackModel PackProps HashModel FileModel FileLemmas FileScan FileInv FileDir FileLook FileRead FileAlloc FileBin FileSlot FileUpd FileStep FileWrite FileExist FileOps.
Import ListNotations.
Open Scope Z_scope.

(** Only the status word of the info block differs. *)
Lemma rec_ok_status d d' own t e e' : shape e -> rec_ok d own t e ->
  e_info e' = e_info e -> e_len e' = e_len e -> e_hash e' = e_hash e -> e_ct e' = e_ct e -> e_words e' = e_words e ->
  (live e' -> 0 <= d' (e_info e + 1) <= 1) ->
  (forall x, own x = t -> x <> e_info e + 1 -> d' x = d x) -> rec_ok d' own t e'.
Proof.
  intros Hs (H1 & H2 & H3 & cap & H4 & H5 & H6 & H7 & H8) X1 X2 X3 X4 X5 HV HD.
  pose proof (numInfo_bounds (e_len e) (proj1 (proj2 Hs))) as HN.
  assert (F : forall k, 2 <= k < 30 -> d' (e_info e + k) = d (e_info e + k)) by (intros k Hk; apply HD; [apply H2|]; lia).
  unfold rec_ok. cbv zeta. rewrite X1, X2, X4.
  split; [assumption|]. split; [exact H2|]. split.
  { destruct H3 as (N1 & N2 & N3 & N4 & N5). unfold named, e_path. rewrite X2, X3, X5.
    split; [rewrite F by lia; exact N1|]. split; [rewrite HD by (try apply H2; lia); exact N2|].
    split; [exact HV|]. split; [rewrite F by lia; exact N4|]. unfold e_path in N5. rewrite <- N5. f_equal. f_equal. unfold tabulate.
    apply map_ext_in. intros k Hk. unfold zseq in Hk. apply in_map_iff in Hk. destruct Hk as (j & <- & Hj). apply in_seq in Hj.
    pose proof (nlib392 _ (proj1 (proj2 Hs))). unfold numInfo in H2. apply HD; [apply H2|]; lia. }
  rewrite !F by lia.
  exists cap. split; [exact H4|]. split; [exact H5|]. split; [exact H6|].
  split; [unfold lay_ok in *; rewrite !F by lia; exact H7|].
  rewrite <- H8. unfold rec_content. rewrite !F by lia.
  destruct H7 as (C1 & C2 & C3 & C4 & C5 & C6 & E1 & E2 & E3 & E4 & E5 & E6 & _).
  pose proof (cnt_words _ C1). pose proof (cnt_words _ C2). pose proof (cnt_words _ C3).
  pose proof (cnt_words _ C4). pose proof (cnt_words _ C5). pose proof (cnt_words _ C6).
  f_equal; apply ints_at_ext; intros x Hx; apply HD; try (apply H4; lia); lia.
Qed.

(** The deleted record that zundelete would find. *)
Definition FirstDead (c : cfg) (ch : chains) (p : list Z) (ct : content) : Prop :=
  exists h i k e, 0 <= h < c_maxHash c /\ entry_at ch (h, i, k) = Some e /\ e_status e = 11 /\ key (e_path e) = key p /\ e_ct e = ct /\
    (forall i' k' e', pos_lt i' k' i k -> entry_at ch (h, i', k') = Some e' -> key (e_path e') = key p -> e_status e' <> 11).

Lemma rep_readInfo_dead c s own ch blocks path h hash i k a es e : wf_cfg c -> Rep c s own ch blocks -> zlen path <= 392 ->
  zhash (c_detune c) (c_maxHash c) path = Ok (h, hash) -> 0 <= h < c_maxHash c ->
  nth_error (ch h) i = Some (a, es) -> nth_error es k = Some e -> key (e_path e) = key path -> e_status e = 11 ->
  (forall i' k' e', pos_lt i' k' i k -> entry_at ch (h, i', k') = Some e' -> key (e_path e') = key path -> e_status e' <> 11) ->
  exists s' i0, zreadInfo c path 11 s = OK true s' /\ same_file s s' /\ seen c path h hash (head_addr 0 (ch h)) a es k e i0 (s_ifl s') /\
    (forall j, 0 <= j < numInfo (zlen path) -> i_info (s_ifl s') j = s_disk s (e_info e + j)).
Proof.
  intros WF RP HL HP Hh Hi Hk HK HV HF. pose proof WF as (W1 & W2 & W3 & W4 & W5).
  destruct (zreadInfo_found c (s_disk s) own ch (fun _ => 0) None h hash path i k a es e s 11) as (s1 & E1 & SF & SN & IN); auto.
  - apply (rp_dsk _ _ _ _ _ RP).
  - pose proof (rep_hash c s own ch blocks RP). lia.
  - intros i' a' es' _ Q. destruct (rep_bin c s own ch blocks WF RP h i' a' es' Hh Q). lia.
  - apply nth_error_lt in Hi. pose proof (rep_len c s own ch blocks WF RP h Hh). lia.
  - discriminate.
  - intros y Hy. pose proof (rep_rec c s own ch blocks RP y h i k Hy). lia.
  - eexists s1, _. split; [exact E1|]. split; [exact SF|]. split; [exact SN|exact IN].
Qed.
Lemma rep_readInfo_dead_none c s own ch blocks path h hash : wf_cfg c -> Rep c s own ch blocks -> zlen path <= 392 ->
  zhash (c_detune c) (c_maxHash c) path = Ok (h, hash) -> 0 <= h < c_maxHash c ->
  (forall i k e, entry_at ch (h, i, k) = Some e -> key (e_path e) = key path -> e_status e <> 11) ->
  exists s', zreadInfo c path 11 s = OK false s' /\ same_file s s'.
Proof.
  intros WF RP HL HP Hh HN. pose proof WF as (W1 & W2 & W3 & W4 & W5).
  destruct (zreadInfo_none c (s_disk s) own ch (fun _ => 0) None h hash path 11 s) as (s' & E & SF & _); auto.
  - apply (rp_dsk _ _ _ _ _ RP).
  - intros; discriminate.
  - pose proof (rep_hash c s own ch blocks RP). lia.
  - intros i' a' es' Q. destruct (rep_bin c s own ch blocks WF RP h i' a' es' Hh Q). lia.
  - apply (rep_len c s own ch blocks WF RP h Hh).
  - exists s'. auto.
Qed.

Section STATUS.
Variables (c : cfg) (s : st) (own : Z -> tag) (ch : chains) (blocks : list Z) (path : list Z) (h hash : Z).
Variables (i k : nat) (a : Z) (es : list entry) (e : entry).
Hypothesis WF : wf_cfg c.
Hypothesis RP : Rep c s own ch blocks.
Hypothesis HL : zlen path <= 392.
Hypothesis HP : zhash (c_detune c) (c_maxHash c) path = Ok (h, hash).
Hypothesis Hh : 0 <= h < c_maxHash c.
Hypothesis Hi : nth_error (ch h) i = Some (a, es).
Hypothesis Hk : nth_error es k = Some e.
Hypothesis ST : storing e.
Hypothesis HK : key (e_path e) = key path.
Let fs0 := h_fileSize (s_hdr s).
Let L0 := Live c ch.
Let K := fun q => q = key path.
Let G := GI c fs0 L0 K.

Definition with_status (v : Z) (e : entry) : entry :=
  mke (e_hash e) v (e_len e) (e_info e) (e_tc e) (e_lw e) (e_dates e) (e_words e) (e_ct e).

(** Lines common to delete and undelete: status in the bin, status in the info block, file header. *)
Lemma run_set_status v (hf : hdr -> hdr) s1 hb i0 E : v = 0 \/ v = 1 \/ v = 11 ->
  (forall x, same_space x (hf x)) ->
  same_file s s1 -> seen c path h hash hb a es k e i0 (s_ifl s1) ->
  (forall j, 0 <= j < numInfo (zlen path) -> i_info (s_ifl s1) j = s_disk s (e_info e + j)) ->
  run G (zputw (i_pathBinAdd (s_ifl s1) + 1) [v] ;;;
         zputw (i_addInfo (s_ifl s1)) (tabulate (upd (i_info (s_ifl s1)) 1 v) (Z.min (numInfo (i_len (s_ifl s1))) 100)) ;;;
         modH hf) s1
    (fun _ s' => exists ch', Rewritten ch ch' h i k (with_status v e) /\
       Dsk c (s_disk s') own ch' (fun _ => 0) None /\ Alloc c (s_disk s') own ch' (s_hdr s') blocks /\
       s_hdr s' = hf (s_hdr s) /\ s_dhdr s' = s_dhdr s /\ s_ifl s' = s_ifl s1 /\
       exists X, Ctx c fs0 L0 K (s_disk s') own ch' (fun _ => 0) X) E.
Proof.
  intros Hv SP (F1 & F2 & F3 & F4) ((I1 & I2 & I3 & _) & _ & _ & (J1 & J2 & J3 & _)) IN.
  pose proof WF as (W1 & W2 & W3 & W4 & W5).
  assert (HE : entry_at ch (h, i, k) = Some e) by (unfold entry_at; rewrite Hi; exact Hk).
  pose proof (Dsk_eok _ _ _ _ _ _ _ _ _ _ (rp_dsk _ _ _ _ _ RP) Hh HE) as EOK. pose proof EOK as (SH & EH & _).
  assert (LEN : e_len e = zlen path).
  { pose proof (e_path_length e SH). pose proof (key_app_inj _ _ HK). destruct SH as (_ & B & _). unfold zlen. lia. }
  pose proof (dk_rec _ _ _ _ _ _ (rp_dsk _ _ _ _ _ RP) h i k e Hh HE ST ltac:(discriminate)) as RO.
  pose proof RO as (R1 & R2 & R3 & _).
  pose proof (numInfo_bounds (e_len e) (proj1 (proj2 SH))) as NB. rewrite LEN in *.
  set (n := numInfo (zlen path)) in *.
  assert (HKK : K (key (e_path e))) by exact HK.
  pose proof (Ctx_exempt c fs0 L0 K (s_disk s) own ch (fun _ => 0) h i k e (rep_ctx c s own ch blocks WF RP K) Hh HE (fun _ => HKK)) as CX.
  pose proof (rp_al _ _ _ _ _ RP) as AL. pose proof (rp_hdr _ _ _ _ _ RP) as EDH.
  pose proof (zlen_enc e) as ZE. pose proof (zlen_nonneg (e_words e)) as ZW.
  rewrite J2, J1, I2. fold n. rewrite Z.min_l by lia.
  set (e' := with_status v e). set (ch' := setb ch h i (a, lset es k e')).
  assert (ST' : storing e') by (unfold storing; cbn; lia).
  assert (SH' : shape e') by exact SH.
  assert (RW : Rewritten ch ch' h i k e') by (eapply Rewritten_setb; eauto).
  step. eapply (run_set_entry c fs0 L0 K own ch (Some (h, i, k)) blocks h i k a es e e' 1); try assumption.
  { rewrite F1. exact CX. } { rewrite F1, F4. exact AL. } { rewrite F2, EDH. apply Z.le_refl. }
  { split; [reflexivity|split; reflexivity]. } { left. exact ST'. }
  { left. reflexivity. } { lia. } { lia. } { discriminate. }
  { rewrite ZE. change (zlen [v]) with 1. lia. }
  { reflexivity. }
  intros d2 OUT2 CX2 AL2 G2. fold ch' in CX2, AL2. rewrite F1 in OUT2. rewrite F2, F4 in *.
  step. eapply (run_own c fs0 L0 K own ch' blocks h i k); cbn [s_disk s_dhdr s_log s_hdr s_ifl]; try assumption; try lia.
  { rewrite EDH. apply Z.le_refl. }
  { rewrite zlen_tabulate by lia. exact R2. } { rewrite zlen_tabulate by lia. lia. }
  intros d3 D3 OUT3 CX3 AL3 G3. apply run_modH; [exact G3|]. cbn [s_disk s_dhdr s_log s_hdr s_ifl].
  exists ch'. split; [exact RW|]. split.
  { eapply Dsk_unexempt; [apply (cx_dsk _ _ _ _ _ _ _ _ _ CX3)|apply RW|]. intros _.
    apply (rec_ok_status (s_disk s) d3 own _ e e' SH RO); try reflexivity.
    { intros [LV|LV]; cbn in LV; rewrite D3, put_tabulate by lia; unfold upd; replace (e_info e + 1 - e_info e) with 1 by lia; cbn; lia. }
    intros y Hy NY. rewrite D3. destruct (Z.lt_ge_cases y (e_info e)) as [L1|L1].
    - rewrite put_out by lia. apply OUT2. rewrite Hy. discriminate.
    - destruct (Z.lt_ge_cases y (e_info e + n)) as [L2|L2].
      + replace y with (e_info e + (y - e_info e)) by lia. rewrite put_tabulate by lia.
        unfold upd. replace (e_info e + (y - e_info e) - e_info e) with (y - e_info e) by lia. destruct (y - e_info e =? 1) eqn:Q; bz; [lia|]. rewrite IN by lia. reflexivity.
      + rewrite put_out by (rewrite zlen_tabulate by lia; lia). apply OUT2. rewrite Hy. discriminate. }
  split; [eapply Alloc_hdr; [exact AL3|apply SP]|]. split; [reflexivity|]. split; [reflexivity|]. split; [reflexivity|]. eauto.
Qed.
End STATUS.

(** ** Effect on the records *)
Lemma run_zdelete c s own ch blocks path : wf_cfg c -> Rep c s own ch blocks -> zlen path <= 392 ->
  ztsPathCompatible path = None ->
  run (GI c (h_fileSize (s_hdr s)) (Live c ch) (fun q => q = key path)) (zdeleteInternal c path false) s
    (fun found s' => (found = true <-> exists ct, Live c ch path ct) /\ i_len (s_ifl s') = zlen path /\
       exists own' ch' blocks', Rep c s' own' ch' blocks' /\
       (forall p ct, Live c ch' p ct <-> key p <> key path /\ Live c ch p ct) /\
       (forall p ct, Dead c ch' p ct -> Dead c ch p ct \/ (key p = key path /\ Live c ch path ct)) /\
       (forall ct, Live c ch path ct -> FirstDead c ch' path ct) /\
       (forall W, dead_max c ch W -> words_of path <= W -> dead_max c ch' W) /\
       (forall n, dead_le c ch n -> dead_le c ch' (if found then n + 1 else n)) /\
       (forall p e, entry_at ch' p = Some e -> live e -> entry_at ch p = Some e))
    (fun _ => False).
Proof.
  intros WF RP HL HT. pose proof WF as (W1 & W2 & W3 & W4 & W5).
  destruct (zhash_ok c path WF) as (h & hash & HP & Hh & HN0).
  set (K := fun q => q = key path). set (fs0 := h_fileSize (s_hdr s)). set (L0 := Live c ch).
  assert (G0 : GI c fs0 L0 K (s_disk s, s_dhdr s)) by (apply (rep_good c s own ch blocks WF RP K)).
  assert (EDH := rp_hdr _ _ _ _ _ RP).
  unfold zdeleteInternal. step. step. set (s0 := mkst _ _ _ _ (set_addInfo 0 (s_ifl s))).
  assert (RP0 : Rep c s0 own ch blocks) by (destruct RP; split; assumption).
  assert (SF0 : same_file s s0) by (repeat split).
  step. change (if false then ST_DELETED else ST_VALID) with 0.
  destruct (rep_lookup c s own ch blocks path h hash WF RP HP Hh) as [[ct LV]|NLV].
  - destruct (rep_live_at c s own ch blocks path ct WF RP LV) as (h' & hash' & i & k & a & es & e & HP' & _ & Hi & Hk & HV & HK & HC).
    rewrite HP in HP'. assert (h' = h) by congruence. assert (hash' = hash) by congruence. subst h' hash'.
    assert (HE : entry_at ch (h, i, k) = Some e) by (unfold entry_at; rewrite Hi; exact Hk).
    assert (ST : storing e) by (unfold storing, live in *; tauto).
    destruct (rep_readInfo c s0 own ch blocks path h hash i k a es e WF RP0 HL HP Hh Hi Hk HK HV) as (s1 & i0 & E1 & SF & SN & IN).
    eapply run_known; [exact G0|exact E1|exact SF|]. cbv beta iota.
    assert (SF1 : same_file s s1) by (unfold same_file in *; destruct SF as (Q1 & Q2 & Q3 & Q4); rewrite Q1, Q2, Q3, Q4; repeat split).
    assert (G1 : GI c fs0 L0 K (s_disk s1, s_dhdr s1)) by (destruct SF1 as (Q1 & Q2 & _); rewrite Q1, Q2; exact G0).
    step. step. step.
    eapply run_conseq; [eapply (run_set_status c s own ch blocks path h hash i k a es e WF RP Hh Hi Hk ST HK 11 (add_counts (-1) 1 0 0) s1); eauto; unfold same_space; cbn; auto| |intros s' _ Q; exact Q].
    cbv beta. intros _ s2 G2 (ch' & RW & DK & AL & HD & DH & IF & X & CX). step.
    apply run_zpermWrite; [exact G2| |].
    { eapply Ctx_GI; [exact CX|]. rewrite HD. cbn. unfold fs0. lia. }
    apply run_ret; [eapply Ctx_GI; [exact CX|]; cbn; rewrite HD; cbn; unfold fs0; lia|].
    cbn [s_disk s_dhdr s_log s_hdr s_ifl]. set (e' := with_status 11 e) in *.
    assert (EP : e_path e' = e_path e) by reflexivity.
    destruct RW as (RW1 & RW2 & RW3).
    assert (X1 : forall h' i' k' x, entry_at ch' (h', i', k') = Some x -> ((h', i', k') = (h, i, k) /\ x = e') \/ ((h', i', k') <> (h, i, k) /\ entry_at ch (h', i', k') = Some x)).
    { intros h' i' k' x Hx. destruct (pos_eq_dec (h', i', k') (h, i, k)) as [Q|Q].
      - left. rewrite Q, RW1 in Hx. split; congruence.
      - right. rewrite RW2 in Hx by exact Q. auto. }
    assert (NV : ~ live e') by (unfold live; cbn; lia).
    split; [split; [intros _; exists ct; exact LV|reflexivity]|]. split; [rewrite IF; apply SN|].
    exists own, ch', blocks. split; [|split; [|split; [|split; [|split; [|split]]]]].
    + destruct RP as [R1 R2 R3 R4 R5 R6]. split; cbn [s_disk s_dhdr s_log s_hdr s_ifl]; auto.
      * intros h1 i1 k1 e1 i2 k2 e2 H1 A1 A2 V1 V2 EK. destruct (X1 _ _ _ _ A1) as [[_ ->]|[_ B1]]; [contradiction|]. destruct (X1 _ _ _ _ A2) as [[_ ->]|[_ B2]]; [contradiction|]. eapply R4; eauto.
      * intros h1 i1 k1 e1 i2 k2 e2 H1 A1 A2 V1 V2 EK. destruct (X1 _ _ _ _ A1) as [[_ ->]|[N1 B1]]; [contradiction|]. destruct (X1 _ _ _ _ A2) as [[N2 ->]|[_ B2]]; [|eapply R5; eauto].
        exfalso. rewrite EP in EK. assert (h1 = h) by congruence. subst h1. destruct (R4 h i1 k1 e1 i k e Hh B1 HE V1 HV EK). congruence.
      * intros h1 i1 a1 H1 Q. apply (R6 h1 i1 a1 H1). apply RW3, Q.
    + intros p ct'. split.
      * intros (h1 & i1 & k1 & e1 & L1 & L2 & L3 & L4 & L5). destruct (X1 _ _ _ _ L2) as [[_ ->]|[N1 B1]]; [contradiction|].
        split; [|exists h1, i1, k1, e1; auto]. intros Q. pose proof (entry_chain c s own ch blocks RP path h hash h1 i1 k1 e1 HP L1 B1 ltac:(congruence)). subst h1.
        destruct (rp_uniq _ _ _ _ _ RP h i1 k1 e1 i k e Hh B1 HE L3 HV ltac:(congruence)). congruence.
      * intros [N (h1 & i1 & k1 & e1 & L1 & L2 & L3 & L4 & L5)]. exists h1, i1, k1, e1. split; [exact L1|]. split; [|auto]. rewrite RW2; [exact L2|].
        intros Q. rewrite Q, HE in L2. assert (e1 = e) by congruence. subst e1. congruence.
    + intros p ct' (h1 & i1 & k1 & e1 & L1 & L2 & L3 & L4 & L5). destruct (X1 _ _ _ _ L2) as [[_ ->]|[N1 B1]]; [right|left; exists h1, i1, k1, e1; auto].
      rewrite EP in L4. cbn in L5. split; [congruence|]. rewrite <- L5, HC. exact LV.
    + intros ct' LV'. rewrite (live_fun c s own ch blocks WF RP _ _ _ LV' LV). exists h, i, k, e'. split; [exact Hh|]. split; [exact RW1|]. split; [reflexivity|]. split; [rewrite EP; exact HK|]. split; [exact HC|].
      intros i1 k1 e1 PL A1 KE S1. destruct (X1 _ _ _ _ A1) as [[Q ->]|[N1 B1]]; [unfold pos_lt in PL; inversion Q; lia|].
      pose proof (rp_order _ _ _ _ _ RP h i k e i1 k1 e1 Hh HE B1 HV S1 ltac:(congruence)) as PL2. unfold pos_lt in *. lia.
    + intros W HM HW h1 i1 k1 e1 H1 A1 S1. destruct (X1 _ _ _ _ A1) as [[Q ->]|[N1 B1]]; [|eapply HM; eauto].
      pose proof (Dsk_eok _ _ _ _ _ _ _ _ _ _ (rp_dsk _ _ _ _ _ RP) Hh HE) as (SH & _).
      pose proof (e_path_length e SH) as PLN. pose proof (key_app_inj _ _ HK). destruct SH as (_ & B & SH). unfold words_of in HW. cbn. rewrite SH. replace (e_len e) with (zlen path) by (unfold zlen; lia). exact HW.
    + intros n. apply (dead_le_add c ch ch' n (h, i, k)). intros h1 i1 k1 e1 H1 N1 A1 S1. destruct (X1 _ _ _ _ A1) as [[Q ->]|[_ B1]]; [contradiction|eauto].
    + intros [[h1 i1] k1] e1 A1 V1. destruct (X1 _ _ _ _ A1) as [[_ ->]|[_ B1]]; [contradiction|exact B1].
  - destruct (rep_readInfo_none c s0 own ch blocks path h hash WF RP0 HL HP Hh HT NLV) as (s1 & E1 & SF & _ & IL1 & _).
    eapply run_known; [exact G0|exact E1|exact SF|]. cbv beta iota.
    destruct SF as (Q1 & Q2 & Q3 & Q4).
    assert (G1 : GI c fs0 L0 K (s_disk s1, s_dhdr s1)) by (rewrite Q1, Q2; exact G0).
    assert (G2 : GI c fs0 L0 K (s_disk s1, s_hdr s1)) by (rewrite Q1, Q4; cbn; rewrite <- EDH; exact G0).
    step. apply run_ret; [exact G1|]. step. apply run_zpermWrite; [exact G1|exact G2|]. apply run_ret; [exact G2|].
    assert (NL : forall ct, ~ Live c ch path ct).
    { intros ct (h1 & i1 & k1 & e1 & L1 & L2 & L3 & L4 & L5). pose proof (entry_chain c s own ch blocks RP path h hash h1 i1 k1 e1 HP L1 L2 L4). subst h1. exact (NLV _ _ _ L2 L4 L3). }
    split; [split; [discriminate|intros [ct LV]; exfalso; exact (NL ct LV)]|]. split; [exact IL1|].
    exists own, ch, blocks. split; [|split; [|split; [|split; [|split; [|split]]]]].
    + destruct RP as [R1 R2 R3 R4 R5 R6]. split; cbn [s_disk s_dhdr s_log s_hdr s_ifl]; auto; rewrite ?Q1, ?Q4; assumption.
    + intros p ct. split; [|tauto]. intros LV. split; [|exact LV]. intros Q. apply (NL ct). destruct LV as (h1 & i1 & k1 & e1 & L1 & L2 & L3 & L4 & L5). exists h1, i1, k1, e1. rewrite <- Q. auto.
    + auto.
    + intros ct LV. exfalso. exact (NL ct LV).
    + auto.
    + auto.
    + auto.
Qed.

Lemma dead_lookup c s own ch blocks path h hash : wf_cfg c -> Rep c s own ch blocks ->
  zhash (c_detune c) (c_maxHash c) path = Ok (h, hash) -> 0 <= h < c_maxHash c ->
  (exists i k a es e, nth_error (ch h) i = Some (a, es) /\ nth_error es k = Some e /\ e_status e = 11 /\ key (e_path e) = key path /\
     (forall i' k' e', pos_lt i' k' i k -> entry_at ch (h, i', k') = Some e' -> key (e_path e') = key path -> e_status e' <> 11)) \/
  (forall i k e, entry_at ch (h, i, k) = Some e -> key (e_path e) = key path -> e_status e <> 11).
Proof.
  intros WF RP HP Hh.
  set (P := fun e => (e_status e =? 11) && (if list_eq_dec Z.eq_dec (key (e_path e)) (key path) then true else false)).
  assert (PT : forall e, P e = true <-> e_status e = 11 /\ key (e_path e) = key path).
  { intros e. unfold P. destruct (list_eq_dec Z.eq_dec (key (e_path e)) (key path)) as [Q|Q]; rewrite ?andb_true_r, ?andb_false_r.
    - rewrite Z.eqb_eq. tauto.
    - split; [discriminate|tauto]. }
  assert (F1 : forall l : list entry, (exists k e, nth_error l k = Some e /\ P e = true /\ forall k' e', (k' < k)%nat -> nth_error l k' = Some e' -> P e' = false) \/ (forall e, In e l -> P e = false)).
  { induction l as [|e t IH]; [right; intros e []|]. destruct (P e) eqn:EP.
    - left. exists 0%nat, e. split; [reflexivity|]. split; [exact EP|]. intros; lia.
    - destruct IH as [(k & e' & H1 & H2 & H3)|IH].
      + left. exists (S k), e'. split; [exact H1|]. split; [exact H2|]. intros [|k'] e1 HK1 HN1; [cbn in HN1; congruence|]. apply (H3 k' e1); [lia|exact HN1].
      + right. intros e' [<-|HI]; auto. }
  assert (F2 : forall l : list bin, (exists i a es k e, nth_error l i = Some (a, es) /\ nth_error es k = Some e /\ P e = true /\
      (forall k' e', (k' < k)%nat -> nth_error es k' = Some e' -> P e' = false) /\
      forall i' a' es' e', (i' < i)%nat -> nth_error l i' = Some (a', es') -> In e' es' -> P e' = false) \/
      (forall b e, In b l -> In e (snd b) -> P e = false)).
  { induction l as [|[a es] t IH]; [right; intros b e []|]. destruct (F1 es) as [(k & e & H1 & H2 & H3)|H].
    - left. exists 0%nat, a, es, k, e. split; [reflexivity|]. split; [exact H1|]. split; [exact H2|]. split; [exact H3|]. intros; lia.
    - destruct IH as [(i & a1 & es1 & k & e & H1 & H2 & H3 & H4 & H5)|IH].
      + left. exists (S i), a1, es1, k, e. split; [exact H1|]. split; [exact H2|]. split; [exact H3|]. split; [exact H4|].
        intros [|i'] a' es' e' HI HN HIn; [cbn in HN; inversion HN; subst; auto|]. eapply (H5 i'); eauto. lia.
      + right. intros b e [<-|HI] HIn; [apply H; exact HIn|eauto]. }
  destruct (F2 (ch h)) as [(i & a & es & k & e & H1 & H2 & H3 & H4 & H5)|H].
  - left. exists i, k, a, es, e. apply PT in H3. split; [exact H1|]. split; [exact H2|]. split; [apply H3|]. split; [apply H3|].
    intros i' k' e' PL HE HK HS. assert (PF : P e' = false).
    { destruct (entry_at_bin _ _ _ _ _ HE) as (a' & es' & N1 & N2). destruct PL as [PL|[-> PL]].
      - eapply H5; eauto. eapply nth_error_In; eauto.
      - rewrite H1 in N1. inversion N1; subst. eapply H4; eauto. }
    assert (P e' = true) by (apply PT; auto). congruence.
  - right. intros i k e HE HK HS. destruct (entry_at_bin _ _ _ _ _ HE) as (a' & es' & N1 & N2).
    assert (P e = true) by (apply PT; auto). assert (P e = false); [|congruence]. apply (H (a', es')); [eapply nth_error_In; eauto|cbn; eapply nth_error_In; eauto].
Qed.

Lemma run_zundelete c s own ch blocks path : wf_cfg c -> Rep c s own ch blocks -> zlen path <= 392 ->
  (forall ct, ~ Live c ch path ct) ->
  run (GI c (h_fileSize (s_hdr s)) (Live c ch) (fun q => q = key path)) (zdeleteInternal c path true) s
    (fun found s' => (found = false -> forall ct, ~ Dead c ch path ct) /\ exists own' ch' blocks', Rep c s' own' ch' blocks' /\
       (forall p ct, Live c ch' p ct <-> Live c ch p ct \/ (found = true /\ key p = key path /\ FirstDead c ch path ct)) /\
       (found = true -> exists ct, FirstDead c ch path ct) /\
       (forall p ct, Dead c ch' p ct -> Dead c ch p ct) /\ (forall W, dead_max c ch W -> dead_max c ch' W) /\
       (forall n, dead_le c ch n -> dead_le c ch' (if found then n - 1 else n)))
    (fun _ => False).
Proof.
  intros WF RP HL NL. pose proof WF as (W1 & W2 & W3 & W4 & W5).
  destruct (zhash_ok c path WF) as (h & hash & HP & Hh & HN0).
  set (K := fun q => q = key path). set (fs0 := h_fileSize (s_hdr s)). set (L0 := Live c ch).
  assert (G0 : GI c fs0 L0 K (s_disk s, s_dhdr s)) by (apply (rep_good c s own ch blocks WF RP K)).
  assert (EDH := rp_hdr _ _ _ _ _ RP).
  unfold zdeleteInternal. step. step. set (s0 := mkst _ _ _ _ (set_addInfo 0 (s_ifl s))).
  assert (RP0 : Rep c s0 own ch blocks) by (destruct RP; split; assumption).
  step. change (if true then ST_DELETED else ST_VALID) with 11.
  destruct (dead_lookup c s own ch blocks path h hash WF RP HP Hh) as [(i & k & a & es & e & Hi & Hk & HS & HK & HF)|NLV].
  - assert (HE : entry_at ch (h, i, k) = Some e) by (unfold entry_at; rewrite Hi; exact Hk).
    assert (ST : storing e) by (unfold storing; tauto).
    destruct (rep_readInfo_dead c s0 own ch blocks path h hash i k a es e WF RP0 HL HP Hh Hi Hk HK HS HF) as (s1 & i0 & E1 & SF & SN & IN).
    eapply run_known; [exact G0|exact E1|exact SF|]. cbv beta iota.
    assert (SF1 : same_file s s1) by (unfold same_file in *; destruct SF as (Q1 & Q2 & Q3 & Q4); rewrite Q1, Q2, Q3, Q4; repeat split).
    assert (G1 : GI c fs0 L0 K (s_disk s1, s_dhdr s1)) by (destruct SF1 as (Q1 & Q2 & _); rewrite Q1, Q2; exact G0).
    step. step. step. cbn zeta.
    set (hf := fun h0 : hdr => let h' := add_counts 1 (-1) 0 (- released (upd (i_info (s_ifl s1)) 1 ST_VALID) (Z.min (numInfo (i_len (s_ifl s1))) 100)) h0 in
                          if h_dead h' <? 0 then add_counts 0 0 0 (- h_dead h') h' else h').
    assert (SP : forall y, same_space y (hf y)).
    { intros y. unfold hf. cbv zeta. match goal with |- context[if ?b then _ else _] => destruct b end; unfold same_space; cbn; auto. }
    eapply run_conseq; [eapply (run_set_status c s own ch blocks path h hash i k a es e WF RP Hh Hi Hk ST HK 0 hf s1); eauto| |intros s' _ Q; exact Q].
    cbv beta. intros _ s2 G2 (ch' & RW & DK & AL & HD & DH & IF & X & CX). step.
    assert (FS2 : fs0 <= h_fileSize (s_hdr s2)) by (rewrite HD; destruct (SP (s_hdr s)) as [-> _]; apply Z.le_refl).
    apply run_zpermWrite; [exact G2|eapply Ctx_GI; [exact CX|exact FS2]|].
    apply run_ret; [eapply Ctx_GI; [exact CX|exact FS2]|].
    cbn [s_disk s_dhdr s_log s_hdr s_ifl]. set (e' := with_status 0 e) in *.
    assert (EP : e_path e' = e_path e) by reflexivity.
    destruct RW as (RW1 & RW2 & RW3).
    assert (X1 : forall h' i' k' x, entry_at ch' (h', i', k') = Some x -> ((h', i', k') = (h, i, k) /\ x = e') \/ ((h', i', k') <> (h, i, k) /\ entry_at ch (h', i', k') = Some x)).
    { intros h' i' k' x Hx. destruct (pos_eq_dec (h', i', k') (h, i, k)) as [Q|Q].
      - left. rewrite Q, RW1 in Hx. split; congruence.
      - right. rewrite RW2 in Hx by exact Q. auto. }
    assert (NV : live e') by (left; reflexivity).
    assert (NLE : forall i1 k1 e1, entry_at ch (h, i1, k1) = Some e1 -> key (e_path e1) = key path -> ~ live e1).
    { intros i1 k1 e1 A1 A2 A3. apply (NL (e_ct e1)). exists h, i1, k1, e1. auto. }
    assert (FD : FirstDead c ch path (e_ct e)) by (exists h, i, k, e; auto 10).
    split; [discriminate|].
    exists own, ch', blocks. split; [|split; [|split; [|split; [|split]]]].
    + destruct RP as [R1 R2 R3 R4 R5 R6]. split; cbn [s_disk s_dhdr s_log s_hdr s_ifl]; auto.
      * intros h1 i1 k1 e1 i2 k2 e2 H1 A1 A2 V1 V2 EK. destruct (X1 _ _ _ _ A1) as [[N1 ->]|[N1 B1]]; destruct (X1 _ _ _ _ A2) as [[N2 ->]|[N2 B2]].
        -- split; congruence.
        -- exfalso. assert (h1 = h) by congruence. subst h1. apply (NLE _ _ _ B2); [congruence|exact V2].
        -- exfalso. assert (h1 = h) by congruence. subst h1. apply (NLE _ _ _ B1); [congruence|exact V1].
        -- eapply R4; eauto.
      * intros h1 i1 k1 e1 i2 k2 e2 H1 A1 A2 V1 V2 EK. destruct (X1 _ _ _ _ A2) as [[_ ->]|[N2 B2]]; [cbn in V2; lia|]. destruct (X1 _ _ _ _ A1) as [[N1 ->]|[_ B1]]; [|eapply R5; eauto].
        assert (h1 = h) by congruence. assert (i1 = i) by congruence. assert (k1 = k) by congruence. subst h1 i1 k1. apply pos_tri; [|congruence].
        intros PL. apply (HF _ _ _ PL B2); [congruence|exact V2].
      * intros h1 i1 a1 H1 Q. apply (R6 h1 i1 a1 H1). apply RW3, Q.
    + intros p ct'. split.
      * intros (h1 & i1 & k1 & e1 & L1 & L2 & L3 & L4 & L5). destruct (X1 _ _ _ _ L2) as [[_ ->]|[N1 B1]]; [right|left; exists h1, i1, k1, e1; auto].
        rewrite EP in L4. cbn in L5. split; [reflexivity|]. split; [congruence|]. rewrite <- L5. exact FD.
      * intros [(h1 & i1 & k1 & e1 & L1 & L2 & L3 & L4 & L5)|(_ & EK & (h1 & i1 & k1 & e1 & L1 & L2 & L3 & L4 & L5 & L6))].
        -- exists h1, i1, k1, e1. split; [exact L1|]. split; [|auto]. rewrite RW2; [exact L2|].
           intros Q. rewrite Q, HE in L2. assert (e1 = e) by congruence. subst e1. unfold live in L3. lia.
        -- pose proof (entry_chain c s own ch blocks RP path h hash h1 i1 k1 e1 HP L1 L2 L4). subst h1.
           assert ((i1, k1) = (i, k)).
           { destruct (Nat.eq_dec i1 i) as [N1|N1]; [destruct (Nat.eq_dec k1 k) as [N2|N2]; [congruence|]|];
             exfalso; (assert (Q : pos_lt i1 k1 i k \/ pos_lt i k i1 k1) by (unfold pos_lt; lia)); (destruct Q as [Q|Q]; [exact (HF _ _ _ Q L2 L4 L3)|exact (L6 _ _ _ Q HE HK HS)]). }
           assert (i1 = i) by congruence. assert (k1 = k) by congruence. subst i1 k1. rewrite HE in L2. assert (e1 = e) by congruence. subst e1.
           exists h, i, k, e'. split; [exact Hh|]. split; [exact RW1|]. split; [exact NV|]. split; [rewrite EP; congruence|exact L5].
    + eauto.
    + intros p ct' (h1 & i1 & k1 & e1 & L1 & L2 & L3 & L4 & L5). destruct (X1 _ _ _ _ L2) as [[_ ->]|[N1 B1]]; [cbn in L3; lia|exists h1, i1, k1, e1; auto].
    + intros W HM h1 i1 k1 e1 H1 A1 S1. destruct (X1 _ _ _ _ A1) as [[Q ->]|[N1 B1]]; [cbn in S1; lia|eapply HM; eauto].
    + intros n. apply (dead_le_remove c ch ch' n h i k e Hh HE HS). intros h1 i1 k1 e1 H1 A1 S1. destruct (X1 _ _ _ _ A1) as [[Q ->]|[N1 B1]]; [cbn in S1; lia|eauto].
  - destruct (rep_readInfo_dead_none c s0 own ch blocks path h hash WF RP0 HL HP Hh NLV) as (s1 & E1 & SF).
    eapply run_known; [exact G0|exact E1|exact SF|]. cbv beta iota.
    destruct SF as (Q1 & Q2 & Q3 & Q4).
    assert (G1 : GI c fs0 L0 K (s_disk s1, s_dhdr s1)) by (rewrite Q1, Q2; exact G0).
    assert (G2 : GI c fs0 L0 K (s_disk s1, s_hdr s1)) by (rewrite Q1, Q4; cbn; rewrite <- EDH; exact G0).
    step. apply run_ret; [exact G1|]. step. apply run_zpermWrite; [exact G1|exact G2|]. apply run_ret; [exact G2|].
    split.
    { intros _ ct (h1 & i1 & k1 & e1 & L1 & L2 & L3 & L4 & L5). pose proof (entry_chain c s own ch blocks RP path h hash h1 i1 k1 e1 HP L1 L2 L4). subst h1. exact (NLV _ _ _ L2 L4 L3). }
    exists own, ch, blocks. split; [|split; [|split; [|split; [|split]]]]; auto.
    + destruct RP as [R1 R2 R3 R4 R5 R6]. split; cbn [s_disk s_dhdr s_log s_hdr s_ifl]; auto; rewrite ?Q1, ?Q4; assumption.
    + intros p ct. split; [tauto|]. intros [Q|(Q & _)]; [exact Q|discriminate].
    + discriminate.
Qed.
