(** * Copying a record keeps the file a map. *)
From Coq Require Import ZArith List Lia Bool Arith.
From Verif Require Import Base PackModel PackProps HashModel PathModel FileModel FileLemmas FileScan FileInv FileDir FileLook FileRead FileAlloc FileBin FileSlot FileUpd FileStep FileWrite FileExist FileOps FileDel FileRen FileCount FileCat FileSpec FileHist FileHistSpec FileProps SqueezeModel SqueezeSpec SqueezeProofs SqueezeProps CopyModel.
Import ListNotations.
Open Scope Z_scope.

(** ** A write, with what is left in the handle *)
Section PUT.
Variables (c : cfg) (W : Z) (t : st) (g : file).
Hypothesis WF : wf_cfg c.
Hypothesis IV : Inv c W t g.

Lemma write_aimed now prog x : request_fits x -> W <= name_words (x_path x) ->
  (forall ct, records g (canon (x_path x)) = Some ct -> odd_request x <= odd_record ct) ->
  ((forall ct, records g (canon (x_path x)) = Some ct -> same_family (ct_type ct) (x_type x)) /\
   exists t1 own ch blocks, zwriteInternal c now prog x t = OK tt t1 /\ Rep c t1 own ch blocks /\ Aimed c ch (key (x_path x)) t1 /\
     (forall p ct, Live c ch p ct <-> set (records g) (canon (x_path x)) (Some (stored x)) (key p) = Some ct) /\
     (forall p ct, Dead c ch p ct -> trash g (key p) ct) /\ dead_max c ch W /\ dead_le c ch (h_numDeletes (s_hdr t1)) /\
     0 <= h_numRenames (s_hdr t1) /\ cnt (set (records g) (canon (x_path x)) (Some (stored x))) (h_numRecords (s_hdr t1)))
  \/ ((exists ct, records g (canon (x_path x)) = Some ct /\ ~ same_family (ct_type ct) (x_type x)) /\
      exists t1, zwriteInternal c now prog x t = ERR t1 /\ Inv c W t1 g).
Proof.
  intros RF HW HO. assert (HW0 := HW). destruct (out_write c W t g WF IV now prog x RF HW HO) as (r & t1 & EX & _ & g1 & ST & IV1).
  destruct (request_fits_ok x RF) as (RQ & HT). rewrite name_words_of in HW. pose proof RQ as (Q1 & _).
  assert (IV' := IV). destruct IV' as [(own & ch & blocks & RP & LV & DD & DM & DL) I2 I3].
  assert (SS : forall h hash, zhash (c_detune c) (c_maxHash c) (x_path x) = Ok (h, hash) -> safe_slot c (ch h) (zlen (x_path x))).
  { intros h hash HP. destruct (zhash_ok c (x_path x) WF) as (h1 & hash1 & HP1 & Hh & _). assert (h1 = h) by congruence. subst h1.
    eapply dead_max_safe; eauto. apply (rp_dsk _ _ _ _ _ RP). }
  destruct (zhash_ok c (x_path x) WF) as (h & hash & HP & Hh & _).
  assert (EV : forall ct, Live c ch (x_path x) ct -> odd_headers x <= odd_content ct) by (intros ct Q; apply HO, LV, Q).
  pose proof (run_zwriteInternal c now prog x t own ch blocks WF RP RQ EV HT SS) as R. unfold run in R. cbn [exec] in EX.
  destruct (zwriteInternal c now prog x t) as [[] t1'|t1'|] eqn:EZ; [| |contradiction]; inversion EX; subst r t1'.
  - left. destruct R as [_ [TC (own' & ch' & blocks' & RP' & LV' & DD' & DM' & DL' & AI & _)]]. split.
    { intros ct Q. apply family_spec, TC, LV, Q. }
    exists t1, own', ch', blocks'. split; [reflexivity|]. split; [exact RP'|]. split; [exact AI|]. split; [|split; [|split; [|split; [|split]]]].
    + intros p ct. rewrite LV', stored_content. change (canon (x_path x)) with (key (x_path x)). destruct (list_eq_dec Z.eq_dec (key p) (key (x_path x))) as [E|E].
      * rewrite E, set_same. split; [intros [[_ ->]|[Q _]]; [reflexivity|congruence]|intros Q; left; split; congruence].
      * rewrite set_other by exact E. rewrite <- LV. tauto.
    + intros p ct Q. apply DD, DD', Q.
    + apply DM', DM.
    + apply DL'. assert (RI : exists b s1, zreadInfo c (x_path x) 0 t = OK b s1).
      { destruct (rep_lookup c t own ch blocks (x_path x) h hash WF RP HP Hh) as [[ct LVx]|NLV].
        - destruct (rep_live_at c t own ch blocks (x_path x) ct WF RP LVx) as (h' & hash' & i & k & a & es & e & HP' & _ & Hi & Hk & HV & HK & HC).
          rewrite HP in HP'. assert (h' = h) by congruence. assert (hash' = hash) by congruence. subst h' hash'.
          destruct (rep_readInfo c t own ch blocks (x_path x) h hash i k a es e WF RP Q1 HP Hh Hi Hk HK HV) as (s1 & i0 & E1 & _). eauto.
        - destruct (rep_readInfo_none c t own ch blocks (x_path x) h hash WF RP Q1 HP Hh HT NLV) as (s1 & E1 & _). eauto. }
      destruct RI as (b & s1 & RI). destruct (count_write c now prog x t t1 b s1 RI) as [CW _]. specialize (CW EZ).
      destruct b; [apply counts_eq in CW|apply counts_plus in CW]; destruct CW as (_ & C2 & _); rewrite C2, ?Z.add_0_r; exact DL.
    + apply IV1.
    + destruct IV1 as [_ _ I3']. inversion ST; subst. exact I3'.
  - right. inversion ST; subst. split; [eauto|]. exists t1. split; [reflexivity|exact IV1].
Qed.

End PUT.

(** The copy of a record: the write, then the info block patched. *)
Lemma copy_put c W t g ev dup f src to ct expNo x : wf_cfg c -> Inv c W t g ->
  read_info f src = OK ct src -> copy_as ev f (info_path f) to ct = (x, expNo) ->
  request_fits x -> W <= name_words (x_path x) -> (forall old, records g (canon (x_path x)) = Some old -> odd_request x <= odd_record old) ->
  fst (i8toi4 false (f 4)) = ct_type (stored x) ->
  ((forall old, records g (canon (x_path x)) = Some old -> same_family (ct_type old) (x_type x)) /\
   exists t', copy_internal c ev dup f src to t = OK tt t' /\ Inv c W t' (mkfile (set (records g) (canon (x_path x)) (Some (stored x))) (trash g)))
  \/ ((exists old, records g (canon (x_path x)) = Some old /\ ~ same_family (ct_type old) (x_type x)) /\
      exists t', copy_internal c ev dup f src to t = ERR t' /\ Inv c W t' g).
Proof.
  intros WF IV SR EX FIT NW HO TY.
  set (t0 := mkst (s_disk t) (s_dhdr t) (s_log t) (s_hdr t) (set_dataDates (f 9) (f 10) (s_ifl t))).
  assert (IV0 : Inv c W t0 g) by (apply (same_file_inv c W t); [repeat split|exact IV]).
  assert (EQ : copy_internal c ev dup f src to t = bindM (zwriteInternal c (v_now ev) (v_prog ev) x) (fun _ =>
      i <- getI ;;
      let f' := if dup then upd (i_info i) 5 (f 5) else f in
      let g := patched f' (i_info i) expNo in
      modI (set_info g) ;;;
      zputw (i_addInfo i) (tabulate g (numInfo (fst (i8toi4 false (i_info i 2))))) ;;;
      zpermWrite) t0).
  { unfold copy_internal. rewrite SR, EX. reflexivity. }
  destruct (write_aimed c W t0 g WF IV0 (v_now ev) (v_prog ev) x FIT NW HO)
    as [(TC & t1 & own & ch & blocks & EZ & RP & AIM & LV & DD & DM & DL & NR & CN)|(NC & t1 & EZ & IV1)].
  2:{ right. split; [exact NC|]. rewrite EQ. unfold bindM at 1. rewrite EZ. exists t1. auto. }
  left. split; [exact TC|]. rewrite EQ. clear EQ. unfold bindM at 1. rewrite EZ. destruct AIM as (h2 & i2 & k2 & e2 & Hh2 & HE2 & HV2 & KE2 & AI & DI).
  unfold bindM at 1, getI at 1. cbv zeta. unfold bindM at 1. unfold modI at 1, bindM at 1, getI at 1, setI at 1.
  pose proof (src_shape c t1 own ch blocks RP h2 i2 k2 e2 Hh2 HE2) as SH2. pose proof (numInfo_bounds (e_len e2) (proj1 (proj2 SH2))) as NB.
  pose proof (src_rec c t1 own ch blocks RP h2 i2 k2 e2 Hh2 HE2 HV2) as RO2. pose proof RO2 as (B1 & B2 & B3 & cap & _ & _ & _ & _ & B8).
  assert (E2L : i_info (s_ifl t1) 2 = e_len e2) by (rewrite <- DI by lia; apply B3).
  rewrite E2L, small_low by apply SH2. rewrite AI.
  set (F := if dup then upd (i_info (s_ifl t1)) 5 (f 5) else f). set (G := patched F (i_info (s_ifl t1)) expNo).
  assert (B9 : e_info e2 < h_fileSize (s_hdr t1)) by (eapply (rep_rec c t1 own ch blocks RP _ h2 i2 k2); apply B2; lia).
  unfold bindM at 1. unfold zputw at 1. cbn [s_hdr s_disk s_dhdr s_log s_ifl]. rewrite ltb_f by lia. rewrite ltb_f by lia. cbn [orb].
  rewrite ltb_f by (pose proof (zlen_tabulate G (numInfo (e_len e2)) ltac:(lia)) as Q; unfold zlen in Q; lia).
  destruct (tabulate G (numInfo (e_len e2))) as [|w0 ws] eqn:ET.
  { exfalso. pose proof (zlen_tabulate G (numInfo (e_len e2)) ltac:(lia)) as Q. rewrite ET in Q. change (zlen []) with 0 in Q. lia. }
  rewrite <- ET. unfold zpermWrite. cbn [issue apply_wr s_hdr s_disk s_dhdr s_log s_ifl]. eexists. split; [reflexivity|].
  assert (CT2 : e_ct e2 = stored x).
  { assert (Q : Live c ch (x_path x) (e_ct e2)) by (exists h2, i2, k2, e2; auto). apply LV in Q.
    change (key (x_path x)) with (canon (x_path x)) in Q. rewrite set_same in Q. congruence. }
  assert (TD : fst (i8toi4 false (s_disk t1 (e_info e2 + 4))) = ct_type (e_ct e2)) by (cbv beta in B8; rewrite <- B8; reflexivity).
  split; [|cbn [s_hdr]; exact NR|cbn [s_hdr records]; exact CN].
  exists own, ch, blocks. cbn [records trash s_hdr]. split; [|auto].
  eapply (Rep_patch c t1 own ch blocks h2 i2 k2 e2); eauto.
  - intros j Hj L N. unfold G, patched. rewrite DI by exact Hj.
    rewrite (proj2 (Z.eqb_neq j 5)) by lia. rewrite (proj2 (Z.eqb_neq j 4)) by lia. rewrite (proj2 (Z.eqb_neq j 6)) by lia.
    rewrite (proj2 (Z.eqb_neq j 7)) by lia. rewrite (proj2 (Z.eqb_neq j 8)) by lia. rewrite (proj2 (Z.eqb_neq j 9)) by lia.
    rewrite (proj2 (Z.eqb_neq j 11)) by lia. rewrite (proj2 (Z.eqb_neq j 12)) by lia. rewrite (proj2 (Z.eqb_neq j 29)) by lia. reflexivity.
  - unfold G, patched. cbn [Z.eqb Pos.eqb orb]. rewrite TD, CT2. unfold F. destruct dup; [|exact TY].
    unfold upd. cbn [Z.eqb Pos.eqb]. rewrite <- CT2, <- TD, DI by lia. reflexivity.
Qed.

(** ** The source *)
Lemma tab_ext f g n : (forall j, 0 <= j < n -> f j = g j) -> tabulate f n = tabulate g n.
Proof. intros H. unfold tabulate. apply map_ext_in. intros k Hk. unfold zseq in Hk. apply in_map_iff in Hk. destruct Hk as (j & <- & Hj). apply in_seq in Hj. apply H. lia. Qed.

Lemma read_info_ext f g s : (forall j, 4 <= j < 28 -> f j = g j) -> read_info f s = read_info g s.
Proof. intros H. unfold read_info. rewrite !H by lia. reflexivity. Qed.

Section SOURCE.
Variables (c : cfg) (s : st) (own : Z -> tag) (ch : chains) (blocks : list Z).
Hypothesis WF : wf_cfg c.
Hypothesis RP : Rep c s own ch blocks.
Variables (h : Z) (i k : nat) (e : entry).
Hypothesis Hh : 0 <= h < c_maxHash c.
Hypothesis HE : entry_at ch (h, i, k) = Some e.
Hypothesis HV : live e.
Variable f : Z -> Z.
Hypothesis AG : forall j, 0 <= j < numInfo (e_len e) -> f j = s_disk s (e_info e + j).

Lemma from_len : 30 <= numInfo (e_len e) /\ 0 <= e_len e <= 392.
Proof. pose proof (src_shape c s own ch blocks RP h i k e Hh HE) as SH. pose proof (numInfo_bounds (e_len e) (proj1 (proj2 SH))). destruct SH as (_ & ? & _). lia. Qed.
Lemma from_read : read_info f s = OK (e_ct e) s.
Proof.
  pose proof from_len. rewrite <- (src_read c s own ch blocks RP h i k e Hh HE HV). apply read_info_ext. intros j Hj. unfold info_at. apply AG. lia.
Qed.
Lemma from_path : info_path f = e_path e.
Proof.
  pose proof from_len as [L1 L2]. rewrite <- (src_path c s own ch blocks RP h i k e Hh HE HV). unfold info_path, info_at. rewrite (AG 2) by lia.
  pose proof (src_rec c s own ch blocks RP h i k e Hh HE HV) as (_ & _ & (N1 & N2 & N3 & N4 & N5) & _). cbv beta in *. rewrite N4, small_low by lia.
  do 2 f_equal. apply tab_ext. intros j Hj. apply AG. pose proof (nlib392 (e_len e) L2). unfold numInfo in *. lia.
Qed.
Lemma from_type : fst (i8toi4 false (f 4)) = ct_type (e_ct e).
Proof.
  pose proof from_len. pose proof (src_rec c s own ch blocks RP h i k e Hh HE HV) as (_ & _ & _ & cap & _ & _ & _ & _ & B8). cbv beta in B8.
  rewrite AG by lia. rewrite <- B8. reflexivity.
Qed.

(** The request that copies it. *)
Lemma from_request ev to x n : proper to -> name_ok to -> plain_units (e_ct e) -> normal (e_ct e) ->
  copy_as ev f (info_path f) to (e_ct e) = (x, n) ->
  request_fits x /\ stored x = e_ct e /\ x_path x = to /\ x_type x = ct_type (e_ct e) /\ odd_request x = odd_record (e_ct e).
Proof.
  intros PR NO PU (NM1 & NM2). unfold copy_as, copy_request. cbv zeta. rewrite copy_path_id by exact PR.
  assert (EIH : (if is_ts (ct_type (e_ct e)) && (1 <? zlen (ct_ih (e_ct e)) - 17) && negb (has_padding (ct_ih (e_ct e))) then v_padded ev (ct_ih (e_ct e)) else ct_ih (e_ct e)) = ct_ih (e_ct e)).
  { destruct (is_ts (ct_type (e_ct e)) && (1 <? zlen (ct_ih (e_ct e)) - 17) && negb (has_padding (ct_ih (e_ct e)))) eqn:Q; [|reflexivity].
    exfalso. apply andb_prop in Q. destruct Q as [Q Q3]. apply andb_prop in Q. destruct Q as [Q1 Q2]. apply andb_prop in Q1. destruct Q1. bz.
    destruct (PU ltac:(lia)) as [P|[P|P]].
    - unfold zlen in Q2. lia.
    - unfold has_padding in Q3. rewrite P in Q3. discriminate.
    - unfold has_padding in Q3. rewrite P in Q3. discriminate. }
  rewrite EIH. cbn [x_type x_ih x_h2 x_uh x_v1 x_v2 x_v3 x_num x_logical x_alloc x_expand]. intros EX. inversion EX; subst x n. clear EX.
  cbn [x_path x_type x_ih x_h2 x_uh x_v1 x_v2 x_v3 x_num x_logical].
  split; [|split; [|split; [reflexivity|split; reflexivity]]].
  - split; [exact NO|]. pose proof (src_rec c s own ch blocks RP h i k e Hh HE HV) as (_ & _ & _ & cap & _ & _ & _ & R7 & R8). cbv zeta beta in *.
    destruct R7 as (C1 & C2 & C3 & C4 & C5 & C6 & _). cbv beta in *.
    rewrite <- R8. unfold rec_content. cbn [x_type x_ih x_h2 x_uh x_v1 x_v2 x_v3 ct_type ct_ih ct_h2 ct_uh ct_v1 ct_v2 ct_v3].
    split; [apply in32_pow, i8toi4_in32|]. intros l Hl. cbn [In] in Hl.
    repeat (destruct Hl as [<-|Hl]; [split; [intros v; apply ints_at_in32|apply ints_at_len; assumption]|]). contradiction.
  - unfold stored. cbn [x_type x_ih x_h2 x_uh x_v1 x_v2 x_v3 x_num x_logical].
    replace (Z.max 0 (ct_num (e_ct e))) with (ct_num (e_ct e)) by lia.
    replace (if 0 <? ct_logical (e_ct e) then ct_logical (e_ct e) else ct_num (e_ct e)) with (ct_logical (e_ct e))
      by (destruct (0 <? ct_logical (e_ct e)) eqn:Q; bz; lia).
    destruct (e_ct e); reflexivity.
Qed.
End SOURCE.

(** ** One record into a file *)
Lemma copy_into c s own ch blocks h i k e f c' W t g ev dup to : wf_cfg c -> Rep c s own ch blocks -> 0 <= h < c_maxHash c ->
  entry_at ch (h, i, k) = Some e -> live e -> (forall j, 0 <= j < numInfo (e_len e) -> f j = s_disk s (e_info e + j)) ->
  wf_cfg c' -> Inv c' W t g -> proper to -> name_ok to -> W <= name_words to -> plain_units (e_ct e) -> normal (e_ct e) ->
  (forall old, records g (canon to) = Some old -> odd_record (e_ct e) <= odd_record old) ->
  ((forall old, records g (canon to) = Some old -> same_family (ct_type old) (ct_type (e_ct e))) /\
   exists t', copy_internal c' ev dup f s to t = OK tt t' /\ Inv c' W t' (mkfile (set (records g) (canon to) (Some (e_ct e))) (trash g)))
  \/ ((exists old, records g (canon to) = Some old /\ ~ same_family (ct_type old) (ct_type (e_ct e))) /\
      exists t', copy_internal c' ev dup f s to t = ERR t' /\ Inv c' W t' g).
Proof.
  intros WF RP Hh HE HV AG WF' IV PR NO NW PU NM HO.
  destruct (copy_as ev f (info_path f) to (e_ct e)) as [x n] eqn:EX.
  destruct (from_request c s own ch blocks RP h i k e Hh HE HV f ev to x n PR NO PU NM EX) as (FIT & ES & EP & ET & EO).
  pose proof (copy_put c' W t g ev dup f s to (e_ct e) n x WF' IV (from_read c s own ch blocks RP h i k e Hh HE HV f AG) EX FIT) as P.
  rewrite EP, EO, ES, ET in P. apply P; [exact NW|exact HO|]. apply (from_type c s own ch blocks RP h i k e Hh HE HV f AG).
Qed.
