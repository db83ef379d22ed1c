(** * zbinNew: a new bin at the end of a chain. *)
From Coq Require Import ZArith List Lia Bool Arith.
From Verif Require Import Base PackModel PackProps HashModel FileModel FileLemmas FileScan FileInv FileDir FileLook FileRead FileAlloc.
Import ListNotations.
Open Scope Z_scope.

Lemma Keep_entries c L0 K ch ch' ex : (forall h i k, entry_at ch' (h, i, k) = entry_at ch (h, i, k)) -> Keep c L0 K ch ex -> Keep c L0 K ch' ex.
Proof.
  intros HE [K1 K2 K3]. split.
  - intros h i k e Hh H. rewrite HE in H. eauto.
  - intros h i k e i' k' e' Hh H H'. rewrite HE in H, H'. eauto.
  - intros p ct HK HL. destruct (K3 p ct HK HL) as (h & i & k & e & Hh & H & Q). exists h, i, k, e. rewrite HE. auto.
Qed.

(** How the owner map may change when a bin is added. *)
Definition own_grows (own own' : Z -> tag) : Prop :=
  (forall x, own x <> TSpare -> own x <> TFree -> own' x = own x) /\
  (forall x, (own' x = TPend \/ exists h i k, own' x = TRec h i k) -> own' x = own x).

Lemma critical_not own ex x : critical own ex x -> own x <> TSpare /\ own x <> TFree /\ own x <> TLink /\ own x <> TPend.
Proof. unfold critical. destruct (own x); intros H; repeat split; try discriminate; destruct H. Qed.

Lemma Ctx_addb c fs0 L0 K d own own' ch dang ex h nb : wf_cfg c -> 0 <= h < c_maxHash c ->
  Ctx c fs0 L0 K d own ch dang ex -> dang h = nb -> 100 <= nb ->
  (forall x, nb <= x < nb + c_binSize c -> d x = 0 /\ own' x = TBin h (length (ch h))) ->
  own_grows own own' ->
  (forall i a es, nth_error (ch h) i = Some (a, es) -> a < fs0) -> Z.of_nat (length (ch h)) <= fs0 ->
  Ctx c fs0 L0 K d own' (addb ch h (nb, [])) (updz dang h 0) ex.
Proof.
  intros WF Hh [DK LM KP] HG HN HZ [HO1 HO2] HA HL. split.
  - eapply Dsk_addbin; eauto. intros x Hx. apply critical_not in Hx. apply HO1; tauto.
  - destruct LM as [M1 M2 M3 M4]. split; auto.
    + intros h' i k x Hx. assert (E : own' x = own x) by (apply HO2; right; eauto). rewrite E in Hx. eauto.
    + intros h' i a es Hh' Hi. rewrite addb_at in Hi. destruct ((h' =? h) && (i =? length (ch h))%nat) eqn:E.
      * inversion Hi; subst. apply andb_prop in E. destruct E as [E1 E2]. bz. apply Nat.eqb_eq in E2. subst h' i.
        right. unfold addb. rewrite Z.eqb_refl, app_length. cbn [length]. split; [lia|]. intros k e Hk. destruct k; discriminate.
      * destruct (h' =? h) eqn:EH; bz.
        -- subst h'. left. eapply HA; eauto.
        -- destruct (M3 h' i a es Hh' Hi) as [Q|Q]; [left; exact Q|right]. unfold addb. rewrite (proj2 (Z.eqb_neq h' h)) by assumption. exact Q.
    + intros h' Hh'. specialize (M4 h' Hh'). unfold addb. destruct (h' =? h) eqn:EH; [|exact M4]. bz. subst h'. rewrite app_length. cbn [length]. lia.
  - eapply Keep_entries; [|exact KP]. intros. apply entry_addb.
Qed.

Lemma Ctx_dang c fs0 L0 K d d' own ch dang ex h v :
  Ctx c fs0 L0 K d own ch dang ex -> wf_cfg c -> 0 <= h < c_maxHash c ->
  (forall x, critical own ex x -> x <> tail_word c ch h -> d' x = d x) -> d' (tail_word c ch h) = v ->
  Ctx c fs0 L0 K d' own ch (updz dang h v) ex.
Proof. intros [DK LM KP] WF Hh HD HV. split; [eapply Dsk_dang; eauto|exact LM|exact KP]. Qed.

Lemma tail_critical c d own ch dang ex h : wf_cfg c -> Dsk c d own ch dang ex -> 0 <= h < c_maxHash c ->
  own (tail_word c ch h) = THash \/ exists i, own (tail_word c ch h) = TBin h i.
Proof.
  intros (_ & _ & WS & _) [DH DB DR] Hh. unfold tail_word. destruct (ch h) as [|b t] eqn:E; [left; apply DH, Hh|]. right. exists (length t).
  pose proof (last_b_nth t b) as LN. rewrite <- E in LN. destruct (last_b t b) as [a es] eqn:EL.
  destruct (DB h (length t) a es Hh LN) as (_ & B2 & _). apply B2. cbn [fst]. lia.
Qed.

Section ADD.
Variables (c : cfg) (fs0 : Z) (L0 : list Z -> content -> Prop) (K : list Z -> Prop).
Variables (d d' : Z -> Z) (own : Z -> tag) (ch : chains) (ex : option pos) (hd : hdr) (blocks : list Z) (h : Z).
Hypothesis WF : wf_cfg c.
Hypothesis Hh : 0 <= h < c_maxHash c.
Hypothesis CX : Ctx c fs0 L0 K d own ch (fun _ => 0) ex.
Hypothesis AL : Alloc c d own ch hd blocks.
Hypothesis HA : forall i a es, nth_error (ch h) i = Some (a, es) -> a < fs0.
Hypothesis HL : Z.of_nat (length (ch h)) <= fs0.

Definition Added (d' : Z -> Z) (hd' : hdr) (nb : Z) : Prop :=
  exists own' blocks', Ctx c fs0 L0 K d' own' (addb ch h (nb, [])) (fun _ => 0) ex /\
    Alloc c d' own' (addb ch h (nb, [])) hd' blocks' /\ own_grows own own' /\
    (forall x, own x = TPend -> d' x = d x) /\ (forall h' i k x, own x = TRec h' i k -> d' x = d x).

Lemma added_take : 0 < h_binsRemain hd -> let nb := h_nextBin hd in
  (forall x, d' x = put d (tail_word c ch h) [nb] x) ->
  Added d' (set_bins (h_binsRemain hd - 1) (nb + c_binSize c) hd) nb.
Proof.
  intros HR nb HD. pose proof WF as (W1 & W2 & W3 & W4 & W5).
  set (own' := retag own nb (c_binSize c) (TBin h (length (ch h)))).
  assert (SP : forall x, nb <= x < nb + c_binSize c -> own x = TSpare /\ d x = 0) by (intros x Hx; apply (al_spare _ _ _ _ _ _ AL); fold nb; nia).
  pose proof (tail_critical c d own ch _ ex h WF (cx_dsk _ _ _ _ _ _ _ _ _ CX) Hh) as TC.
  assert (NT : forall x, x <> tail_word c ch h -> d' x = d x) by (intros x Hx; rewrite HD; apply put_out; change (zlen [nb]) with 1; lia).
  assert (N1 : forall x, own x = TSpare \/ own x = TLink -> x <> tail_word c ch h).
  { intros x [Hx|Hx] ->; rewrite Hx in TC; destruct TC as [TC|[? TC]]; discriminate. }
  assert (GR : own_grows own own').
  { split; intros x Hx.
    - intros Hx2. unfold own'. destruct (Z.lt_ge_cases x nb); [rewrite retag_out by lia; reflexivity|].
      destruct (Z.lt_ge_cases x (nb + c_binSize c)); [|rewrite retag_out by lia; reflexivity].
      destruct (SP x) as [Q _]; [lia|]. contradiction.
    - unfold own' in *. destruct (Z.lt_ge_cases x nb); [rewrite retag_out by lia; reflexivity|].
      destruct (Z.lt_ge_cases x (nb + c_binSize c)); [|rewrite retag_out by lia; reflexivity].
      rewrite retag_in in Hx by lia. destruct Hx as [Hx|(h1 & i1 & k1 & Hx)]; discriminate. }
  assert (HB100 : 100 <= nb).
  { destruct (al_blk _ _ _ _ _ _ AL) as (bs & b & E1 & E2). fold nb in E2.
    destruct (al_link _ _ _ _ _ _ AL (length bs) b) as (Q & _); [rewrite E1, nth_error_app2, Nat.sub_diag by lia; reflexivity|].
    pose proof (al_rem _ _ _ _ _ _ AL). nia. }
  exists own', blocks. split; [|split; [|split; [exact GR|split]]].
  - eapply Ctx_dang_ext; [eapply (Ctx_addb c fs0 L0 K d' own own' ch (updz (fun _ => 0) h nb) ex h nb); eauto|].
    + apply (Ctx_dang c fs0 L0 K d d' own ch (fun _ => 0) ex h nb); auto.
      rewrite HD. rewrite put_in by (change (zlen [nb]) with 1; lia). rewrite Z.sub_diag. reflexivity.
    + unfold updz. rewrite Z.eqb_refl. reflexivity.
    + intros x Hx. destruct (SP x Hx) as [Q1 Q2]. split; [rewrite NT by auto; exact Q2|]. unfold own'. apply retag_in. exact Hx.
    + intros h'. unfold updz. destruct (h' =? h); reflexivity.
  - apply Alloc_take with (d := d); auto.
  - intros x Hx. apply NT. intros ->. rewrite Hx in TC. destruct TC as [TC|[? TC]]; discriminate.
  - intros h' i k x Hx. apply NT. intros ->. rewrite Hx in TC. destruct TC as [TC|[? TC]]; discriminate.
Qed.

Lemma added_block hd' : h_binsRemain hd = 0 -> let nb := h_fileSize hd in
  (forall x, x <> tail_word c ch h -> x <> h_nextBin hd -> x < nb -> d' x = d x) ->
  d' (tail_word c ch h) = nb -> d' (h_nextBin hd) = nb ->
  (forall x, nb <= x <= nb + c_bpb c * c_binSize c -> d' x = 0) ->
  h_fileSize hd' = nb + c_binSize c * c_bpb c + 1 -> h_binsRemain hd' = c_bpb c - 1 -> h_nextBin hd' = nb + c_binSize c ->
  Added d' hd' nb.
Proof.
  intros HR nb HD HT HN HZ E1 E2 E3. pose proof WF as (W1 & W2 & W3 & W4 & W5).
  set (own' := own_block c own nb h (length (ch h))).
  pose proof (tail_critical c d own ch _ ex h WF (cx_dsk _ _ _ _ _ _ _ _ _ CX) Hh) as TC.
  assert (NL : own (h_nextBin hd) = TLink).
  { destruct (al_blk _ _ _ _ _ _ AL) as (bs & b & Q1 & Q2). rewrite HR, Z.sub_0_r in Q2. rewrite Q2.
    apply (al_link _ _ _ _ _ _ AL (length bs) b). rewrite Q1, nth_error_app2, Nat.sub_diag by lia; reflexivity. }
  assert (LO : forall x, own x <> TFree -> x < nb).
  { intros x Hx. destruct (Z.lt_ge_cases x nb); [assumption|]. exfalso. apply Hx. apply (al_free _ _ _ _ _ _ AL). assumption. }
  assert (NT : forall x, own x <> TFree -> x <> tail_word c ch h -> own x <> TLink -> d' x = d x).
  { intros x Q1 Q2 Q3. apply HD; auto. intros ->. contradiction. }
  assert (GR : own_grows own own').
  { split; intros x Hx.
    - intros Hx2. unfold own', own_block. rewrite ltb_t by auto. reflexivity.
    - unfold own', own_block in *. destruct (x <? nb); [reflexivity|].
      destruct (x <? nb + c_binSize c); [destruct Hx as [Hx|(?&?&?&Hx)]; discriminate|].
      destruct (x <? nb + c_bpb c * c_binSize c); [destruct Hx as [Hx|(?&?&?&Hx)]; discriminate|].
      destruct (x =? nb + c_bpb c * c_binSize c); destruct Hx as [Hx|(?&?&?&Hx)]; discriminate. }
  exists own', (blocks ++ [nb]). split; [|split; [|split; [exact GR|split]]].
  - eapply Ctx_dang_ext; [eapply (Ctx_addb c fs0 L0 K d' own own' ch (updz (fun _ => 0) h nb) ex h nb); eauto|].
    + apply (Ctx_dang c fs0 L0 K d d' own ch (fun _ => 0) ex h nb); auto.
      intros x Hx Hx2. apply critical_not in Hx. apply NT; tauto.
    + unfold updz. rewrite Z.eqb_refl. reflexivity.
    + apply (al_fs _ _ _ _ _ _ AL).
    + intros x Hx. split; [apply HZ; nia|]. unfold own', own_block. rewrite ltb_f by lia. rewrite ltb_t by lia. reflexivity.
    + intros h'. unfold updz. destruct (h' =? h); reflexivity.
  - apply Alloc_block with (d := d) (hd := hd); auto. intros x Hx Hx2. apply HD; auto.
    + intros ->. rewrite Hx in TC. destruct TC as [TC|[? TC]]; discriminate.
    + apply LO. rewrite Hx. discriminate.
  - intros x Hx. apply NT; rewrite ?Hx; try discriminate. intros ->. rewrite Hx in TC. destruct TC as [TC|[? TC]]; discriminate.
  - intros h' i k x Hx. apply NT; rewrite ?Hx; try discriminate. intros ->. rewrite Hx in TC. destruct TC as [TC|[? TC]]; discriminate.
Qed.
End ADD.

(** Frames for the writes of zbinNew that do not touch the directory. *)
Ltac step := cbv beta; lazymatch goal with
  | |- run _ (modI _) _ _ _ => apply run_modI; [assumption|]
  | |- run _ (modH _) _ _ _ => apply run_modH; [assumption|]
  | |- run _ getI _ _ _ => apply run_getI; [assumption|]
  | |- run _ getH _ _ _ => apply run_getH; [assumption|]
  | |- run _ (bindM _ _) _ _ _ => apply run_bind
  end; cbn beta iota zeta.

Section NEW.
Variables (c : cfg) (fs0 : Z) (L0 : list Z -> content -> Prop) (K : list Z -> Prop).
Variables (own : Z -> tag) (ch : chains) (ex : option pos) (blocks : list Z) (h : Z) (s : st).
Hypothesis WF : wf_cfg c.
Hypothesis Hh : 0 <= h < c_maxHash c.
Hypothesis CX : Ctx c fs0 L0 K (s_disk s) own ch (fun _ => 0) ex.
Hypothesis AL : Alloc c (s_disk s) own ch (s_hdr s) blocks.
Hypothesis HA : forall i a es, nth_error (ch h) i = Some (a, es) -> a < fs0.
Hypothesis HL : Z.of_nat (length (ch h)) <= fs0.
Hypothesis HD : fs0 <= h_fileSize (s_dhdr s).
Let G := GI c fs0 L0 K.

Definition AddedSt (i' : Z -> ifl) (s' : st) : Prop :=
  exists nb, Added c fs0 L0 K (s_disk s) own ch ex h (s_disk s') (s_hdr s') nb /\
    s_dhdr s' = s_dhdr s /\ s_ifl s' = i' nb /\ 0 < nb /\
    h_fileSize (s_hdr s) <= h_fileSize (s_hdr s') /\ h_catSeq (s_hdr s') = h_catSeq (s_hdr s) /\
    h_numRecords (s_hdr s') = h_numRecords (s_hdr s) /\ h_numDeletes (s_hdr s') = h_numDeletes (s_hdr s).

Lemma start_good : G (s_disk s, s_dhdr s).
Proof. eapply Ctx_GI; eauto. Qed.
Let HG0 := start_good.

Lemma good_frame d' : (forall x, critical own ex x -> d' x = s_disk s x) -> G (d', s_dhdr s).
Proof. intros Q. eapply Ctx_GI; [|exact HD]. eapply Ctx_disk; eauto. Qed.
Lemma good_tail d' v : (forall x, critical own ex x -> x <> tail_word c ch h -> d' x = s_disk s x) -> d' (tail_word c ch h) = v ->
  G (d', s_dhdr s).
Proof. intros Q1 Q2. eapply Ctx_GI; [|exact HD]. eapply Ctx_dang; eauto. Qed.

Lemma next_link : h_binsRemain (s_hdr s) = 0 -> own (h_nextBin (s_hdr s)) = TLink.
Proof.
  intros HR. destruct (al_blk _ _ _ _ _ _ AL) as (bs & b & Q1 & Q2). rewrite HR, Z.sub_0_r in Q2. rewrite Q2.
  apply (al_link _ _ _ _ _ _ AL (length bs) b). rewrite Q1, nth_error_app2, Nat.sub_diag by lia; reflexivity.
Qed.
Lemma below_fs x : own x <> TFree -> x < h_fileSize (s_hdr s).
Proof.
  intros Hx. destruct (Z.lt_ge_cases x (h_fileSize (s_hdr s))); [assumption|]. exfalso. apply Hx. apply (al_free _ _ _ _ _ _ AL). assumption.
Qed.
Lemma crit_out x : critical own ex x -> x < h_fileSize (s_hdr s) /\ (h_binsRemain (s_hdr s) = 0 -> x <> h_nextBin (s_hdr s)).
Proof.
  intros Hx. apply critical_not in Hx. split; [apply below_fs; tauto|]. intros HR ->. rewrite next_link in Hx by assumption. tauto.
Qed.
Lemma tail_out : tail_word c ch h < h_fileSize (s_hdr s) /\ 0 <= tail_word c ch h /\ (h_binsRemain (s_hdr s) = 0 -> tail_word c ch h <> h_nextBin (s_hdr s)).
Proof.
  pose proof (tail_critical c (s_disk s) own ch _ ex h WF (cx_dsk _ _ _ _ _ _ _ _ _ CX) Hh) as TC.
  pose proof WF as (W1 & W2 & W3 & W4 & W5).
  assert (CT : critical own ex (tail_word c ch h)) by (unfold critical; destruct TC as [->|[? ->]]; exact I).
  destruct (crit_out _ CT) as [Q1 Q2]. split; [exact Q1|]. split; [|exact Q2].
  unfold tail_word. destruct (ch h) as [|b t] eqn:E; [lia|].
  pose proof (last_b_nth t b) as LN. rewrite <- E in LN. destruct (last_b t b) as [a es] eqn:EL.
  destruct (dk_bin _ _ _ _ _ _ (cx_dsk _ _ _ _ _ _ _ _ _ CX) h (length t) a es Hh LN) as (B1 & _). cbn [fst]. lia.
Qed.
Lemma next_pos : 0 <= h_nextBin (s_hdr s) <= h_fileSize (s_hdr s).
Proof.
  destruct (al_blk _ _ _ _ _ _ AL) as (bs & b & Q1 & Q2).
  destruct (al_link _ _ _ _ _ _ AL (length bs) b) as (Q3 & Q4 & _); [rewrite Q1, nth_error_app2, Nat.sub_diag by lia; reflexivity|].
  pose proof (al_rem _ _ _ _ _ _ AL). pose proof WF as (W1 & W2 & W3 & W4 & W5).
  assert (b + c_bpb c * c_binSize c < h_fileSize (s_hdr s)) by (apply below_fs; rewrite Q4; discriminate).
  nia.
Qed.

(** zbinNew on a chain that has a bin. *)
Lemma run_zbinNew b t E :
  ch h = b :: t -> i_hashBin (s_ifl s) <> 0 -> i_binCur (s_ifl s) = fst (last_b t b) ->
  run G (zbinNew c) s
    (fun _ s' => AddedSt (fun nb => set_bin (repeat 0 (Z.to_nat (c_binSize c))) (set_binCur nb (s_ifl s))) s') E.
Proof.
  intros EC HB BC. pose proof WF as (W1 & W2 & W3 & W4 & W5).
  assert (TW : i_binCur (s_ifl s) + c_binSize c - 1 = tail_word c ch h) by (unfold tail_word; rewrite EC, BC; reflexivity).
  pose proof tail_out as (T1 & T2 & T3). pose proof (al_rem _ _ _ _ _ _ AL) as AR. pose proof (al_fs _ _ _ _ _ _ AL) as AF.
  pose proof next_pos as NP.
  assert (BCpos : 100 <= i_binCur (s_ifl s)).
  { pose proof (last_b_nth t b) as LN. rewrite <- EC in LN. rewrite BC. destruct (last_b t b) as [a es].
    apply (dk_bin _ _ _ _ _ _ (cx_dsk _ _ _ _ _ _ _ _ _ CX) h (length t) a es Hh LN). }
  unfold zbinNew. step. step. step. step. step. rewrite (proj2 (Z.eqb_neq _ 0) HB). cbn [negb].
  step. apply run_zgetw; [exact HG0|lia|lia|].
  destruct (h_binsRemain (s_hdr s) <=? 0) eqn:ER; bz.
  - assert (HR : h_binsRemain (s_hdr s) = 0) by lia. specialize (T3 HR).
    step. unfold zgetFileSpace. step. step. step. apply run_setH; [exact HG0|]. apply run_ret; [exact HG0|]. cbv beta.
    set (fs := h_fileSize (s_hdr s)) in *. rewrite TW. cbn [s_disk s_dhdr s_log s_hdr s_ifl].
    step. set (d1 := put (s_disk s) (tail_word c ch h) [fs]).
    assert (V1 : d1 (tail_word c ch h) = fs) by (unfold d1; rewrite put_in by (change (zlen [fs]) with 1; lia); rewrite Z.sub_diag; reflexivity).
    assert (O1 : forall x, x <> tail_word c ch h -> d1 x = s_disk s x) by (intros x Hx; unfold d1; apply put_out; change (zlen [fs]) with 1; lia).
    assert (G1 : G (d1, s_dhdr s)) by (apply good_tail with (v := fs); auto).
    apply run_zputw; cbn [s_disk s_dhdr s_log s_hdr s_ifl h_fileSize]; [exact HG0|lia|change (zlen [fs]) with 1; lia|discriminate|exact G1|].
    fold d1. apply run_ret; [exact G1|]. cbv beta.
    step. step. rewrite (proj2 (Z.eqb_neq fs 0)) by lia. apply run_ret; [exact G1|]. cbv beta.
    step. set (d2 := put d1 (h_nextBin (s_hdr s)) [fs]).
    assert (V2 : d2 (h_nextBin (s_hdr s)) = fs) by (unfold d2; rewrite put_in by (change (zlen [fs]) with 1; lia); rewrite Z.sub_diag; reflexivity).
    assert (O2 : forall x, x <> h_nextBin (s_hdr s) -> d2 x = d1 x) by (intros x Hx; unfold d2; apply put_out; change (zlen [fs]) with 1; lia).
    assert (G2 : G (d2, s_dhdr s)).
    { apply good_tail with (v := fs); [|rewrite O2; auto]. intros x Hx Hx2. destruct (crit_out x Hx) as [Q1 Q2]. rewrite O2 by auto. auto. }
    apply run_zputw; cbn [s_disk s_dhdr s_log s_hdr s_ifl h_fileSize]; [exact G1|lia|change (zlen [fs]) with 1; lia|discriminate|exact G2|].
    fold d2. step. step. cbn [s_disk s_dhdr s_log s_hdr s_ifl set_bins h_fileSize h_binsRemain h_nextBin].
    step. step. cbn [s_disk s_dhdr s_log s_hdr s_ifl].
    step. set (bsz := c_binSize c * c_bpb c + 1). set (d3 := zero d2 fs bsz).
    assert (V3 : forall x, fs <= x < fs + bsz -> d3 x = 0) by (intros x Hx; unfold d3; apply zero_in; exact Hx).
    assert (O3 : forall x, x < fs \/ fs + bsz <= x -> d3 x = d2 x) by (intros x Hx; unfold d3; apply zero_out; exact Hx).
    assert (NF : h_nextBin (s_hdr s) < fs) by (apply below_fs; rewrite next_link by assumption; discriminate).
    assert (G3 : G (d3, s_dhdr s)).
    { apply good_tail with (v := fs); [|rewrite O3 by auto; rewrite O2; auto]. intros x Hx Hx2. destruct (crit_out x Hx) as [Q1 Q2].
      rewrite O3 by auto. rewrite O2 by auto. auto. }
    apply run_zputzero; cbn [s_disk s_dhdr s_log s_hdr s_ifl h_fileSize set_bins]; [exact G2|unfold bsz; nia|exact G3|].
    fold d3. unfold zwriteEOF. step. step. cbn [s_disk s_dhdr s_log s_hdr s_ifl set_bins h_fileSize h_binsRemain h_nextBin].
    set (d4 := put d3 (fs + bsz) [EOF_FLAG]).
    assert (O4 : forall x, x < fs + bsz -> d4 x = d3 x) by (intros x Hx; unfold d4; apply put_out; lia).
    assert (BZ : 1 <= bsz) by (unfold bsz; nia).
    assert (G4 : G (d4, s_dhdr s)).
    { apply good_tail with (v := fs); [|rewrite O4 by lia; rewrite O3 by auto; rewrite O2; auto]. intros x Hx Hx2. destruct (crit_out x Hx) as [Q1 Q2].
      rewrite O4 by lia. rewrite O3 by auto. rewrite O2 by auto. auto. }
    apply run_zputw; cbn [s_disk s_dhdr s_log s_hdr s_ifl h_fileSize set_bins]; [exact G3|lia|change (zlen [EOF_FLAG]) with 1; lia|discriminate|exact G4|].
    fold d4. step. cbn [s_disk s_dhdr s_log s_hdr s_ifl].
    exists fs. cbn [s_disk s_dhdr s_log s_hdr s_ifl set_bins h_fileSize h_numRecords h_numDeletes h_catSeq].
    split; [|repeat split; lia].
    eapply (added_block c fs0 L0 K (s_disk s) d4 own ch ex (s_hdr s)); eauto; fold fs.
    + intros x Q1 Q2 Q3. rewrite O4 by lia. rewrite O3 by auto. rewrite O2 by auto. auto.
    + rewrite O4 by lia. rewrite O3 by auto. rewrite O2; auto.
    + rewrite O4 by lia. rewrite O3 by auto. exact V2.
    + intros x Hx. rewrite O4 by (unfold bsz; nia). apply V3. unfold bsz. nia.
    + cbn. unfold bsz. lia.
  - step. apply run_ret; [exact HG0|]. cbv beta. rewrite TW.
    set (nb := h_nextBin (s_hdr s)). step. set (d1 := put (s_disk s) (tail_word c ch h) [nb]).
    assert (G1 : G (d1, s_dhdr s)).
    { apply good_tail with (v := nb); [intros x _ Hx; unfold d1; apply put_out; change (zlen [nb]) with 1; lia|].
      unfold d1; rewrite put_in by (change (zlen [nb]) with 1; lia); rewrite Z.sub_diag; reflexivity. }
    apply run_zputw; [exact HG0|lia|change (zlen [nb]) with 1; lia|discriminate|exact G1|].
    fold d1. apply run_ret; [exact G1|]. cbv beta. step. step. step. cbn [s_disk s_dhdr s_log s_hdr s_ifl].
    step. step. cbn [s_disk s_dhdr s_log s_hdr s_ifl].
    exists nb. cbn [s_disk s_dhdr s_log s_hdr s_ifl set_bins h_fileSize h_numRecords h_numDeletes h_catSeq].
    assert (NBp : 0 < nb).
    { destruct (al_blk _ _ _ _ _ _ AL) as (bs & b' & Q1 & Q2). fold nb in Q2.
      destruct (al_link _ _ _ _ _ _ AL (length bs) b') as (Q3 & _); [rewrite Q1, nth_error_app2, Nat.sub_diag by lia; reflexivity|]. nia. }
    split; [|repeat split; lia].
    eapply (added_take c fs0 L0 K (s_disk s) d1 own ch ex (s_hdr s)); eauto.
Qed.

(** zbinNew for the first bin of a chain, followed by the entry in the hash table (zwriteNew.c:165-180, zrename.c:251-266). *)
Lemma run_zbinFirst E :
  ch h = [] -> i_hashBin (s_ifl s) = 0 ->
  run G (zbinNew c ;;; i' <- getI ;; modI (set_hashBin (i_binCur i')) ;;; zputw (h + c_hashStart c) [i_binCur i']) s
    (fun _ s' => AddedSt (fun nb => set_hashBin nb (set_bin (repeat 0 (Z.to_nat (c_binSize c))) (set_binCur nb (s_ifl s)))) s') E.
Proof.
  intros EC HB. pose proof WF as (W1 & W2 & W3 & W4 & W5).
  assert (TW : h + c_hashStart c = tail_word c ch h) by (unfold tail_word; rewrite EC; lia).
  pose proof tail_out as (T1 & T2 & T3). pose proof (al_rem _ _ _ _ _ _ AL) as AR. pose proof (al_fs _ _ _ _ _ _ AL) as AF.
  pose proof next_pos as NP.
  step. unfold zbinNew. step. step. step. step. step. rewrite HB. cbn [Z.eqb negb]. apply run_ret; [exact HG0|]. cbv beta.
  rewrite TW.
  destruct (h_binsRemain (s_hdr s) <=? 0) eqn:ER; bz.
  - assert (HR : h_binsRemain (s_hdr s) = 0) by lia. specialize (T3 HR).
    step. cbn [Z.eqb]. step. unfold zgetFileSpace. step. step. step. apply run_setH; [exact HG0|]. apply run_ret; [exact HG0|]. cbv beta.
    set (fs := h_fileSize (s_hdr s)) in *. cbn [s_disk s_dhdr s_log s_hdr s_ifl].
    step. set (d2 := put (s_disk s) (h_nextBin (s_hdr s)) [fs]).
    assert (V2 : d2 (h_nextBin (s_hdr s)) = fs) by (unfold d2; rewrite put_in by (change (zlen [fs]) with 1; lia); rewrite Z.sub_diag; reflexivity).
    assert (O2 : forall x, x <> h_nextBin (s_hdr s) -> d2 x = s_disk s x) by (intros x Hx; unfold d2; apply put_out; change (zlen [fs]) with 1; lia).
    assert (G2 : G (d2, s_dhdr s)).
    { apply good_frame. intros x Hx. destruct (crit_out x Hx) as [Q1 Q2]. auto. }
    apply run_zputw; cbn [s_disk s_dhdr s_log s_hdr s_ifl h_fileSize]; [exact HG0|lia|change (zlen [fs]) with 1; lia|discriminate|exact G2|].
    fold d2. step. step. cbn [s_disk s_dhdr s_log s_hdr s_ifl set_bins h_fileSize h_binsRemain h_nextBin].
    step. step. cbn [s_disk s_dhdr s_log s_hdr s_ifl].
    step. set (bsz := c_binSize c * c_bpb c + 1). set (d3 := zero d2 fs bsz).
    assert (V3 : forall x, fs <= x < fs + bsz -> d3 x = 0) by (intros x Hx; unfold d3; apply zero_in; exact Hx).
    assert (O3 : forall x, x < fs \/ fs + bsz <= x -> d3 x = d2 x) by (intros x Hx; unfold d3; apply zero_out; exact Hx).
    assert (NF : h_nextBin (s_hdr s) < fs) by (apply below_fs; rewrite next_link by assumption; discriminate).
    assert (G3 : G (d3, s_dhdr s)).
    { apply good_frame. intros x Hx. destruct (crit_out x Hx) as [Q1 Q2]. rewrite O3 by auto. auto. }
    apply run_zputzero; cbn [s_disk s_dhdr s_log s_hdr s_ifl h_fileSize set_bins]; [exact G2|unfold bsz; nia|exact G3|].
    fold d3. unfold zwriteEOF. step. step. cbn [s_disk s_dhdr s_log s_hdr s_ifl set_bins h_fileSize h_binsRemain h_nextBin].
    set (d4 := put d3 (fs + bsz) [EOF_FLAG]).
    assert (O4 : forall x, x < fs + bsz -> d4 x = d3 x) by (intros x Hx; unfold d4; apply put_out; lia).
    assert (BZ : 1 <= bsz) by (unfold bsz; nia).
    assert (G4 : G (d4, s_dhdr s)).
    { apply good_frame. intros x Hx. destruct (crit_out x Hx) as [Q1 Q2]. rewrite O4 by lia. rewrite O3 by auto. auto. }
    apply run_zputw; cbn [s_disk s_dhdr s_log s_hdr s_ifl h_fileSize set_bins]; [exact G3|lia|change (zlen [EOF_FLAG]) with 1; lia|discriminate|exact G4|].
    fold d4. step. cbn [s_disk s_dhdr s_log s_hdr s_ifl]. step. step. step. step. cbn [s_disk s_dhdr s_log s_hdr s_ifl].
    cbn [i_binCur set_bin set_binCur].
    set (d5 := put d4 (tail_word c ch h) [fs]).
    assert (V5 : d5 (tail_word c ch h) = fs) by (unfold d5; rewrite put_in by (change (zlen [fs]) with 1; lia); rewrite Z.sub_diag; reflexivity).
    assert (O5 : forall x, x <> tail_word c ch h -> d5 x = d4 x) by (intros x Hx; unfold d5; apply put_out; change (zlen [fs]) with 1; lia).
    assert (G5 : G (d5, s_dhdr s)).
    { apply good_tail with (v := fs); [|auto]. intros x Hx Hx2. destruct (crit_out x Hx) as [Q1 Q2].
      rewrite O5 by auto. rewrite O4 by lia. rewrite O3 by auto. auto. }
    apply run_zputw; cbn [s_disk s_dhdr s_log s_hdr s_ifl h_fileSize set_bins]; [exact G4|lia|change (zlen [fs]) with 1; lia|discriminate|exact G5|].
    fold d5. exists fs. cbn [s_disk s_dhdr s_log s_hdr s_ifl set_bins h_fileSize h_numRecords h_numDeletes h_catSeq].
    split; [|repeat split; lia].
    eapply (added_block c fs0 L0 K (s_disk s) d5 own ch ex (s_hdr s)); eauto; fold fs.
    + intros x Q1 Q2 Q3. rewrite O5 by auto. rewrite O4 by lia. rewrite O3 by auto. auto.
    + rewrite O5 by auto. rewrite O4 by lia. rewrite O3 by auto. exact V2.
    + intros x Hx. rewrite O5 by lia. rewrite O4 by (unfold bsz; nia). apply V3. unfold bsz. nia.
    + cbn. unfold bsz. lia.
  - set (nb := h_nextBin (s_hdr s)). step. step. step. step. cbn [s_disk s_dhdr s_log s_hdr s_ifl].
    step. cbn [s_disk s_dhdr s_log s_hdr s_ifl]. step. step. step. step. cbn [s_disk s_dhdr s_log s_hdr s_ifl].
    cbn [i_binCur set_bin set_binCur].
    set (d1 := put (s_disk s) (tail_word c ch h) [nb]).
    assert (G1 : G (d1, s_dhdr s)).
    { apply good_tail with (v := nb); [intros x _ Hx; unfold d1; apply put_out; change (zlen [nb]) with 1; lia|].
      unfold d1; rewrite put_in by (change (zlen [nb]) with 1; lia); rewrite Z.sub_diag; reflexivity. }
    apply run_zputw; cbn [s_disk s_dhdr s_log s_hdr s_ifl h_fileSize set_bins]; [exact HG0|lia|change (zlen [nb]) with 1; lia|discriminate|exact G1|].
    fold d1. exists nb. cbn [s_disk s_dhdr s_log s_hdr s_ifl set_bins h_fileSize h_numRecords h_numDeletes h_catSeq].
    assert (NBp : 0 < nb).
    { destruct (al_blk _ _ _ _ _ _ AL) as (bs & b' & Q1 & Q2). fold nb in Q2.
      destruct (al_link _ _ _ _ _ _ AL (length bs) b') as (Q3 & _); [rewrite Q1, nth_error_app2, Nat.sub_diag by lia; reflexivity|]. nia. }
    split; [|repeat split; lia].
    eapply (added_take c fs0 L0 K (s_disk s) d1 own ch ex (s_hdr s)); eauto.
Qed.
End NEW.
