(** * The catalogue with a selection lists exactly the selected records: the walk of [FileCat] once more. *)
From Coq Require Import ZArith List Lia Bool Arith.
From Verif Require Import Base PackModel PackProps HashModel FileModel FileLemmas FileScan FileInv FileDir FileLook FileRead FileAlloc FileBin FileSlot FileUpd FileStep FileWrite FileExist FileOps FileCat CatModel.
Import ListNotations.
Open Scope Z_scope.

Section SEL.
Variables (keep : list Z -> Z -> Z -> res bool) (kb : entry -> bool).
Definition sel (e : entry) : bool := liveb e && kb e.
Definition pick (es : list entry) : list (list Z) := map name_of (filter sel es).
Definition asks (e : entry) : Prop := liveb e = true -> keep (e_path e) (fst (i8toi4 false (e_tc e))) (e_lw e) = Ok (kb e).

Lemma catf_bin_encs (isize ls next : Z) : forall es fuel icount acc z,
  Forall shape es -> Forall asks es -> icount + zlen (encs es) + z + 1 = isize -> 1 <= z -> (length es < fuel)%nat ->
  ln acc + ln (pick es) <= ls ->
  catf_bin keep fuel isize ls (encs es ++ repeat 0 (Z.to_nat z) ++ [next]) icount acc = Some (acc ++ pick es).
Proof.
  induction es as [|e t IH]; intros fuel icount acc z HS HA Hsz Hz Hf HL; (destruct fuel as [|fuel]; [cbn [length] in Hf; lia|]).
  - cbn [encs flat_map app catf_bin pick filter map]. rewrite app_nil_r. destruct (Z.to_nat z) eqn:E; [lia|]. reflexivity.
  - inversion_clear HS as [|? ? He Ht]. inversion_clear HA as [|? ? Ha HA']. pose proof (shape_words e He) as Hw. pose proof (shape_unpack e He) as Hu.
    assert (Hl : zlen (e_words e) = numberLongsInBytes (e_len e)) by apply He.
    rewrite encs_cons in Hsz |- *. rewrite zlen_app, zlen_enc in Hsz.
    unfold enc at 1. cbn [app catf_bin]. rewrite eqb_f by apply He. rewrite Hu. cbv zeta.
    pose proof (zlen_nonneg (encs t)) as Hnn.
    assert (EP : firstn (Z.to_nat (e_len e)) (bytes_of_words ((e_words e ++ encs t) ++ repeat 0 (Z.to_nat z) ++ [next])) = e_path e).
    { unfold e_path. rewrite <- !app_assoc. unfold bytes_of_words at 1. rewrite flat_map_app. fold (bytes_of_words (e_words e)).
      assert (HB : (Z.to_nat (e_len e) <= length (bytes_of_words (e_words e)))%nat).
      { rewrite bytes_of_words_length. pose proof (nlib_bounds (e_len e)). unfold zlen in Hl. destruct He as (_ & HH & _). lia. }
      rewrite firstn_app. replace (Z.to_nat (e_len e) - _)%nat with 0%nat by lia. rewrite firstn_O, app_nil_r. reflexivity. }
    rewrite EP. change (zcompareRecordStatus (e_status e) ST_VALID) with (liveb e). unfold pick in *. cbn [filter] in *.
    assert (SK : skipn (Z.to_nat (7 + zlen (e_words e)))
              (e_hash e :: e_status e :: i4toi8 false (e_len e) (zlen (e_words e)) :: e_info e :: e_tc e :: e_lw e :: e_dates e ::
               (e_words e ++ encs t) ++ repeat 0 (Z.to_nat z) ++ [next]) = encs t ++ repeat 0 (Z.to_nat z) ++ [next]).
    { replace (Z.to_nat (7 + zlen (e_words e))) with (7 + length (e_words e))%nat by (unfold zlen; lia).
      cbn [Nat.add skipn]. rewrite <- !app_assoc. rewrite skipn_app, skipn_all, Nat.sub_diag. reflexivity. }
    assert (ET : isize - 2 <= icount + 7 + zlen (e_words e) -> t = []).
    { intros Eend. assert (HZ : zlen (encs t) = 0) by lia. apply zlen_nil in HZ.
      destruct t as [|e' t']; [reflexivity|]; rewrite encs_cons in HZ; discriminate. }
    assert (KE : (if liveb e then keep (e_path e) (fst (i8toi4 false (e_tc e))) (e_lw e) else Ok false) = Ok (sel e)).
    { unfold sel. destruct (liveb e) eqn:EL; [rewrite (Ha EL); reflexivity|reflexivity]. }
    rewrite KE. destruct (sel e) eqn:EL; cbn [andb map length] in *.
    + rewrite leb_f by lia. rewrite (proj2 (Z.ltb_lt 0 ls)) by lia. cbn [andb]. destruct (isize - 2 <=? icount + 7 + zlen (e_words e)) eqn:Eend; bz.
      * rewrite (ET Eend). reflexivity.
      * rewrite SK, IH; auto; [rewrite <- app_assoc; reflexivity|lia|cbn [length] in Hf; lia|rewrite app_length; cbn [length]; lia].
    + destruct (isize - 2 <=? icount + 7 + zlen (e_words e)) eqn:Eend; bz.
      * rewrite (ET Eend). cbn. rewrite app_nil_r. reflexivity.
      * rewrite SK, IH; auto; [lia|cbn [length] in Hf; lia].
Qed.

Variables (c : cfg) (s : st) (own : Z -> tag) (ch : chains) (blocks : list Z).
Hypothesis (WF : wf_cfg c) (RP : Rep c s own ch blocks).
Hypothesis ASK : forall h i a es, 0 <= h < c_maxHash c -> nth_error (ch h) i = Some (a, es) -> Forall asks es.
Let bs := c_binSize c.

Lemma pick_app a b : pick (a ++ b) = pick a ++ pick b.
Proof. unfold pick. rewrite filter_app, map_app. reflexivity. Qed.

Lemma catf_bins_run ls : forall vis a r acc,
  Forall2 (holds c ch) (slots c a (length vis)) vis -> (length vis <= r)%nat ->
  (length vis = r \/ (let x := a + Z.of_nat (length vis) * bs in 0 <= x <= h_fileSize (s_hdr s) /\ s_disk s x = 0)) ->
  ln acc + ln (pick (ventries vis)) <= ls ->
  catf_bins keep r c ls a acc s = OK (a + Z.of_nat (length vis) * bs, acc ++ pick (ventries vis)) s.
Proof.
  pose proof WF as (W1 & W2 & W3 & W4 & W5).
  induction vis as [|v vis IH]; intros a r acc HF Hr HE HL.
  - cbn [length ventries flat_map pick filter map] in *. rewrite app_nil_r, Z.mul_0_l, Z.add_0_r.
    destruct r as [|r]; [reflexivity|]. destruct HE as [HE|[H1 H2]]; [discriminate|]. rewrite Z.mul_0_l, Z.add_0_r in H1, H2.
    cbn [catf_bins]. rewrite bindM_OK with (a := words (s_disk s) a bs) (s' := s) by (apply (zgetw_in c s); unfold bs; lia).
    pose proof (words_nth (s_disk s) a bs 0 ltac:(unfold bs; lia)) as Q. change (Z.to_nat 0) with 0%nat in Q. rewrite Z.add_0_r in Q. rewrite Q, H2. reflexivity.
  - cbn [length slots] in *. inversion HF as [|? ? ? ? Hv Ht]; subst. destruct v as [[h i] es]. destruct Hv as [Hh Hi].
    destruct (rep_bin c s own ch blocks WF RP h i a es Hh Hi) as [B1 B2].
    destruct (dk_bin _ _ _ _ _ _ (rp_dsk _ _ _ _ _ RP) h i a es Hh Hi) as (_ & _ & B3 & B4 & B5).
    destruct r as [|r]; [lia|]. cbn [catf_bins]. rewrite bindM_OK with (a := words (s_disk s) a bs) (s' := s) by (apply (zgetw_in c s); unfold bs; lia).
    fold bs in B3. rewrite B3. unfold ventries in *. cbn [flat_map snd] in *. fold (ventries vis) in *. rewrite pick_app, app_length in HL.
    assert (NE : es <> []) by (intros ->; exact (rp_bins _ _ _ _ _ RP h i a Hh Hi)).
    destruct es as [|e t] eqn:EE; [congruence|]. rewrite <- EE in *.
    assert (SH : Forall shape es) by (eapply Forall_impl; [|exact B5]; intros x Hx; apply Hx).
    assert (N0 : nth 0 (bin_words bs es (next_addr 0 (ch h) i)) 0 =? 0 = false).
    { rewrite EE. unfold bin_words. rewrite encs_cons. unfold enc. cbn [app nth]. apply eqb_f. rewrite EE in SH. inversion SH as [|? ? He _]; apply He. }
    rewrite N0. pose proof (length_encs es) as LE. pose proof (zlen_nonneg (encs es)) as LN.
    pose proof (bin_words_length bs es (next_addr 0 (ch h) i) ltac:(unfold bs; lia)) as BL.
    assert (CB : catf_bin keep (length (bin_words bs es (next_addr 0 (ch h) i))) bs ls (bin_words bs es (next_addr 0 (ch h) i)) 0 acc = Some (acc ++ pick es)).
    { unfold bin_words at 2. fold bs in B4. apply catf_bin_encs; auto; try lia; try (eapply ASK; eauto). unfold zlen in *. lia. }
    fold bs. rewrite CB. rewrite IH; [rewrite pick_app, app_assoc; f_equal; f_equal; lia|exact Ht|lia| |rewrite app_length; lia].
    destruct HE as [HE|[H1 H2]]; [left; lia|right]. replace (a + bs + Z.of_nat (length vis) * bs) with (a + Z.of_nat (S (length vis)) * bs) by lia. split; assumption.
Qed.

Lemma catf_blocks_run ls : forall bl pre acc fuel b t vis, blocks = pre ++ bl -> bl = b :: t ->
  Forall2 (holds c ch) (addrs c s bl) vis -> (length bl <= fuel)%nat -> ln acc + ln (pick (ventries vis)) <= ls ->
  catf_blocks keep fuel c ls b acc s = OK (acc ++ pick (ventries vis)) s.
Proof.
  pose proof WF as (W1 & W2 & W3 & W4 & W5). pose proof (rp_al _ _ _ _ _ RP) as AL.
  induction bl as [|b0 bl IH]; intros pre acc fuel b t vis EB EL HF Hfu HL; [discriminate|]. inversion EL; subst b0 bl. clear EL.
  destruct fuel as [|fuel]; [cbn [length] in Hfu; lia|]. cbn [addrs] in HF. apply Forall2_app_inv_l in HF. destruct HF as (v1 & v2 & F1 & F2 & ->).
  assert (L1 : length v1 = used c s (b :: t)) by (rewrite <- (F2_length _ _ _ F1); apply slots_length).
  rewrite ventries_app in HL |- *. rewrite pick_app, app_length in HL.
  assert (NB : nth_error blocks (length pre) = Some b) by (rewrite EB, nth_error_app2, Nat.sub_diag by lia; reflexivity).
  destruct (al_link _ _ _ _ _ _ AL _ _ NB) as (K1 & K2 & K3). pose proof (al_rem _ _ _ _ _ _ AL) as RM.
  destruct (al_blk _ _ _ _ _ _ AL) as (bs0 & bl0 & Q1 & Q2).
  assert (LF : b + c_bpb c * c_binSize c < h_fileSize (s_hdr s)).
  { destruct (Z_lt_le_dec (b + c_bpb c * c_binSize c) (h_fileSize (s_hdr s))) as [Q|Q]; [exact Q|]. rewrite (al_free _ _ _ _ _ _ AL _ Q) in K2. discriminate. }
  assert (LAST : t = [] -> bl0 = b).
  { intros ->. rewrite EB in Q1. apply app_inj_tail in Q1. symmetry. apply Q1. }
  assert (US : Z.of_nat (used c s (b :: t)) <= c_bpb c) by (unfold used; destruct t; lia).
  assert (STOP : let x := b + Z.of_nat (used c s (b :: t)) * bs in 0 <= x <= h_fileSize (s_hdr s) /\
     s_disk s x = nth 0 t 0 /\ (used c s (b :: t) <> Z.to_nat (c_bpb c) -> s_disk s x = 0)).
  { cbv zeta. assert (Z.of_nat (used c s (b :: t)) * bs <= c_bpb c * bs) by (unfold bs; nia). unfold bs in *. split; [nia|].
    assert (NX : nth (S (length pre)) blocks 0 = nth 0 t 0).
    { rewrite EB, app_nth2 by lia. replace (S (length pre) - length pre)%nat with 1%nat by lia. reflexivity. }
    destruct t as [|b1 t1].
    - unfold used. rewrite Z2Nat.id by lia. specialize (LAST eq_refl). subst bl0. cbn [nth].
      destruct (Z.eq_dec (h_binsRemain (s_hdr s)) 0) as [Z0|Z0].
      + rewrite Z0, Z.sub_0_r. split; [rewrite K3; exact NX|congruence].
      + rewrite <- Q2. destruct (al_spare _ _ _ _ _ _ AL (h_nextBin (s_hdr s)) ltac:(nia)) as [_ ->]. auto.
    - unfold used. rewrite Z2Nat.id by lia. split; [rewrite K3; exact NX|congruence]. }
  destruct STOP as (S1 & S2 & S3).
  cbn [catf_blocks]. rewrite bindM_OK with (a := (b + Z.of_nat (length v1) * bs, acc ++ pick (ventries v1))) (s' := s).
  2:{ apply catf_bins_run; [rewrite L1; exact F1|lia| |lia]. cbv zeta. rewrite L1.
      destruct (Nat.eq_dec (used c s (b :: t)) (Z.to_nat (c_bpb c))) as [E|E]; [left; exact E|right; auto]. }
  cbn [fst snd]. rewrite L1. rewrite bindM_OK with (a := words (s_disk s) (b + Z.of_nat (used c s (b :: t)) * bs) 1) (s' := s) by (apply (zgetw_in c s); lia).
  pose proof (words_nth (s_disk s) (b + Z.of_nat (used c s (b :: t)) * bs) 1 0 ltac:(lia)) as Q. change (Z.to_nat 0) with 0%nat in Q. rewrite Z.add_0_r in Q. rewrite Q, S2.
  destruct t as [|b1 t1].
  - cbn [nth]. rewrite Z.eqb_refl. cbn [addrs] in F2. inversion F2; subst. unfold ventries. cbn [flat_map pick filter map app]. rewrite !app_nil_r. reflexivity.
  - cbn [nth]. assert (NB1 : nth_error blocks (S (length pre)) = Some b1).
    { rewrite EB, nth_error_app2 by lia. replace (S (length pre) - length pre)%nat with 1%nat by lia. reflexivity. }
    destruct (al_link _ _ _ _ _ _ AL _ _ NB1) as (K1' & _). rewrite eqb_f by lia.
    rewrite (IH (pre ++ [b]) (acc ++ pick (ventries v1)) fuel b1 t1 v2).
    + rewrite pick_app, app_assoc. reflexivity.
    + rewrite EB, <- app_assoc. reflexivity.
    + reflexivity.
    + exact F2.
    + cbn [length] in *. lia.
    + rewrite app_length. lia.
Qed.

(** The walk lists the names of the live entries [kb] keeps, and [vl] is the list of all live entries. *)
Lemma rep_select ls : 
  (exists ks, (forall p ct, Live c ch p ct -> In (key p) ks) /\ ln ks <= ls) ->
  exists vl, catf_blocks keep (S (Z.to_nat (h_fileSize (s_hdr s)))) c ls (c_firstBin c) [] s = OK (map name_of (filter kb vl)) s /\
    NoDup (map (fun e => key (e_path e)) vl) /\
    (forall e, In e vl -> exists h i k, 0 <= h < c_maxHash c /\ entry_at ch (h, i, k) = Some e /\ live e) /\
    (forall h i k e, 0 <= h < c_maxHash c -> entry_at ch (h, i, k) = Some e -> live e -> In e vl).
Proof.
  intros (ks & K1 & K2). pose proof (rp_al _ _ _ _ _ RP) as AL. pose proof WF as (W1 & W2 & W3 & W4 & W5).
  destruct (Forall2_choice (holds c ch) (addrs c s blocks)) as [vis HF].
  { intros a Ha. destruct (addrs_in c s own ch blocks RP blocks [] a eq_refl Ha) as (j & b & m & _ & H2 & H3 & -> & H5).
    destruct (al_used _ _ _ _ _ _ AL j b m H2 H3 H5) as (h & i & es & Hh & Hi). exists (h, i, es). split; assumption. }
  pose proof (vis_nodup c s own ch blocks RP _ _ HF (addrs_nodup c s own ch blocks WF RP blocks [] eq_refl)) as ND.
  assert (LE : ln (pick (ventries vis)) <= ls).
  { unfold pick. rewrite map_length. transitivity (ln (filter liveb (ventries vis))).
    { apply inj_le. unfold sel. generalize (ventries vis). intros l. induction l as [|e l IH]; cbn; [lia|]. destruct (liveb e); cbn [andb]; [destruct (kb e); cbn [length]; lia|lia]. } unfold keys in ND. etransitivity; [|exact K2]. apply inj_le.
    rewrite <- (map_length (fun e => key (e_path e))). apply NoDup_incl_length; [exact ND|]. intros q Hq. apply in_map_iff in Hq. destruct Hq as (e & <- & He).
    apply filter_In in He. destruct He as [He HV]. destruct (vis_entry c s own ch blocks RP vis _ HF e He) as (h & i & k & es & _ & Hh & _ & HE & HO).
    apply (liveb_live c h e HO) in HV. apply (K1 (e_path e) (e_ct e)). exists h, i, k, e. auto. }
  assert (NB : exists b t, blocks = b :: t).
  { destruct (al_blk _ _ _ _ _ _ AL) as (bs0 & b & Q1 & _). rewrite Q1. destruct bs0 as [|b0 bs0]; cbn [app]; eexists; eexists; reflexivity. }
  destruct NB as (b & t & EB).
  exists (filter liveb (ventries vis)). split; [|split; [exact ND|split]].
  - assert (FE : filter kb (filter liveb (ventries vis)) = filter sel (ventries vis)).
    { unfold sel. generalize (ventries vis). intros l. induction l as [|e l IH]; cbn; [reflexivity|]. destruct (liveb e); cbn [filter andb]; [destruct (kb e); congruence|exact IH]. }
    rewrite FE. replace (c_firstBin c) with b by (rewrite <- (al_first _ _ _ _ _ _ AL), EB; reflexivity).
    change (map name_of (filter sel (ventries vis))) with ([] ++ pick (ventries vis)).
    apply (catf_blocks_run _ blocks [] [] _ b t vis eq_refl EB HF); [|cbn [length]; lia].
    pose proof (al_cap _ _ _ _ _ _ AL). pose proof (al_fs _ _ _ _ _ _ AL).
    assert (ln blocks <= ln blocks * c_bpb c) by nia. assert (ln blocks * c_bpb c <= ln blocks * c_bpb c * c_binSize c) by nia. lia.
  - intros e He. apply filter_In in He. destruct He as [He HV]. destruct (vis_entry c s own ch blocks RP vis _ HF e He) as (h & i & k & es & _ & Hh & _ & HE & HO).
    exists h, i, k. split; [exact Hh|]. split; [exact HE|]. apply (liveb_live c h e HO), HV.
  - intros h i k e Hh HE HV. apply filter_In. split; [|apply (liveb_live c h); [eapply Dsk_eok; [apply (rp_dsk _ _ _ _ _ RP)|exact Hh|exact HE]|exact HV]].
    destruct (entry_at_bin _ _ _ _ _ HE) as (a & es & E1 & E2).
    destruct (al_slot _ _ _ _ _ _ AL h i a es Hh E1) as (j & b' & m & S1 & S2 & S3 & ->).
    pose proof (addrs_all c s own ch blocks RP blocks [] j b' m eq_refl ltac:(cbn; lia) S1 S2 S3) as IA.
    assert (exists v, In v vis /\ holds c ch (b' + m * c_binSize c) v) as ([[h' i'] es'] & V1 & V2 & V3).
    { clear - HF IA. induction HF as [|x v l l' Hxy HF IH]; [destruct IA|]. destruct IA as [<-|IA]; [exists v; cbn; auto|]. destruct (IH IA) as (v' & ? & ?). exists v'. cbn; auto. }
    destruct (dk_bin _ _ _ _ _ _ (rp_dsk _ _ _ _ _ RP) h i _ es Hh E1) as (_ & O1 & _). destruct (dk_bin _ _ _ _ _ _ (rp_dsk _ _ _ _ _ RP) h' i' _ es' V2 V3) as (_ & O2 & _).
    specialize (O1 (b' + m * c_binSize c) ltac:(lia)). specialize (O2 (b' + m * c_binSize c) ltac:(lia)). rewrite O1 in O2. inversion O2; subst h' i'.
    assert (es' = es) by congruence. subst es'. unfold ventries. apply in_flat_map. exists (h, i, es). split; [exact V1|]. cbn. eapply nth_error_In; eauto.
Qed.
End SEL.
