(** * zwrite over an existing record. *)
From Coq Require Import ZArith List Lia Bool Arith.
From Verif Require Import Base PackModel PackProps HashModel FileModel FileLemmas FileScan FileInv FileDir FileLook FileRead FileAlloc FileBin FileSlot FileUpd FileStep FileWrite.
Import ListNotations.
Open Scope Z_scope.

(** ** Two kinds of write *)
(** Part of a directory entry. *)
Lemma run_set_entry c fs0 L0 K own ch ex blocks h i k a es e e' j ws addr s (Q : unit -> st -> Prop) (E : st -> Prop) :
  wf_cfg c -> Ctx c fs0 L0 K (s_disk s) own ch (fun _ => 0) ex -> Alloc c (s_disk s) own ch (s_hdr s) blocks ->
  fs0 <= h_fileSize (s_dhdr s) -> 0 <= h < c_maxHash c ->
  nth_error (ch h) i = Some (a, es) -> nth_error es k = Some e -> same_name e e' ->
  storing e' \/ e_status e' = 12 -> K (key (e_path e)) ->
  (ex = Some (h, i, k) \/ (storing e' -> storing e /\ same_rec e e')) ->
  addr = a + (zlen (encs (firstn k es)) + j) -> 0 <= j -> ws <> [] -> j + zlen ws <= zlen (enc e) ->
  enc e' = firstn (Z.to_nat j) (enc e) ++ ws ++ skipn (Z.to_nat (j + zlen ws)) (enc e) ->
  (forall d', (forall x, own x <> TBin h i -> d' x = s_disk s x) ->
     Ctx c fs0 L0 K d' own (setb ch h i (a, lset es k e')) (fun _ => 0) ex ->
     Alloc c d' own (setb ch h i (a, lset es k e')) (s_hdr s) blocks ->
     GI c fs0 L0 K (d', s_dhdr s) ->
     Q tt (mkst d' (s_dhdr s) (s_log s ++ [WWords addr ws]) (s_hdr s) (s_ifl s))) ->
  run (GI c fs0 L0 K) (zputw addr ws) s Q E.
Proof.
  intros WF CX AL FS Hh Hi Hk SN ST HK HEX -> Hj HW HN HE HQ.
  pose proof WF as (W1 & W2 & W3 & W4 & W5).
  destruct (dk_bin _ _ _ _ _ _ (cx_dsk _ _ _ _ _ _ _ _ _ CX) h i a es Hh Hi) as (B1 & B2 & B3 & B4 & B5).
  assert (BF : a + c_binSize c <= h_fileSize (s_hdr s)).
  { assert (a + c_binSize c - 1 < h_fileSize (s_hdr s)); [|lia]. eapply below_free; [exact AL|]. rewrite B2 by lia. discriminate. }
  assert (OFF : zlen (encs (firstn k es)) + zlen (enc e) <= zlen (encs es)).
  { destruct (nth_error_split es k Hk) as (l1 & l2 & -> & L). subst k. rewrite firstn_app, Nat.sub_diag, firstn_all. cbn [firstn]. rewrite app_nil_r.
    rewrite encs_app, encs_cons, !zlen_app. pose proof (zlen_nonneg (encs l2)). lia. }
  pose proof (zlen_nonneg (encs (firstn k es))) as ON. pose proof (zlen_nonneg ws) as WN.
  destruct (words_put_entry (c_binSize c) (s_disk s) a es k e e' j ws _ Hk B4 B3 Hj HN HE) as [P1 P2].
  set (d' := put (s_disk s) (a + (zlen (encs (firstn k es)) + j)) ws) in *.
  assert (OUT : forall x, own x <> TBin h i -> d' x = s_disk s x).
  { intros x Hx. unfold d'. apply put_out. destruct (Z.lt_ge_cases x a); [left; lia|]. destruct (Z.lt_ge_cases x (a + c_binSize c)); [|right; lia].
    exfalso. apply Hx, B2. lia. }
  assert (CX' : Ctx c fs0 L0 K d' own (setb ch h i (a, lset es k e')) (fun _ => 0) ex).
  { eapply Ctx_setentry; eauto. lia. }
  assert (G' : GI c fs0 L0 K (d', s_dhdr s)) by (eapply Ctx_GI; eauto).
  apply run_zputw; [eapply Ctx_GI; eauto|lia|lia|exact HW|exact G'|].
  apply HQ; auto. eapply Alloc_setentry; [exact AL|exact Hi|]. intros x Hx. apply OUT. destruct Hx as [-> | ->]; discriminate.
Qed.

(** Words of the record that is being changed. *)
Lemma run_own c fs0 L0 K own ch blocks h i k a ws s (Q : unit -> st -> Prop) (E : st -> Prop) :
  Ctx c fs0 L0 K (s_disk s) own ch (fun _ => 0) (Some (h, i, k)) -> Alloc c (s_disk s) own ch (s_hdr s) blocks ->
  fs0 <= h_fileSize (s_dhdr s) -> (forall x, a <= x < a + zlen ws -> own x = TRec h i k) -> 0 <= a -> 0 < zlen ws <= 10000 ->
  (forall d', d' = put (s_disk s) a ws ->
     (forall x, own x <> TRec h i k -> d' x = s_disk s x) ->
     Ctx c fs0 L0 K d' own ch (fun _ => 0) (Some (h, i, k)) -> Alloc c d' own ch (s_hdr s) blocks ->
     GI c fs0 L0 K (d', s_dhdr s) ->
     Q tt (mkst d' (s_dhdr s) (s_log s ++ [WWords a ws]) (s_hdr s) (s_ifl s))) ->
  run (GI c fs0 L0 K) (zputw a ws) s Q E.
Proof.
  intros CX AL FS HO HA HW HQ. set (d' := put (s_disk s) a ws) in *.
  assert (OUT : forall x, own x <> TRec h i k -> d' x = s_disk s x).
  { intros x Hx. unfold d'. apply put_out. destruct (Z.lt_ge_cases x a); [left; lia|]. destruct (Z.lt_ge_cases x (a + zlen ws)); [|right; lia].
    exfalso. apply Hx, HO. lia. }
  assert (CX' : Ctx c fs0 L0 K d' own ch (fun _ => 0) (Some (h, i, k))).
  { eapply Ctx_disk; [exact CX|]. intros x Hx. apply OUT. intros Q1. revert Hx. apply critical_own. exact Q1. }
  assert (G' : GI c fs0 L0 K (d', s_dhdr s)) by (eapply Ctx_GI; eauto).
  assert (a < h_fileSize (s_hdr s)) by (eapply below_free; [exact AL|rewrite (HO a) by lia; discriminate]).
  apply run_zputw; [eapply Ctx_GI; eauto|lia|lia| |exact G'|].
  - intros ->. change (zlen (@nil Z)) with 0 in HW. lia.
  - apply HQ; auto. eapply Alloc_disk; [exact AL|]. intros x Hx. apply OUT. destruct Hx as [-> | ->]; discriminate.
Qed.

Lemma lset_firstn {A} (x : A) : forall l k, firstn k (lset l k x) = firstn k l.
Proof. induction l as [|y t IH]; intros [|k]; cbn; auto. f_equal. apply IH. Qed.

(** One entry of the directory replaced. *)
Definition Rewritten (ch ch' : chains) (h : Z) (i k : nat) (e' : entry) : Prop :=
  entry_at ch' (h, i, k) = Some e' /\ (forall p, p <> (h, i, k) -> entry_at ch' p = entry_at ch p) /\
  (forall h' i' a, nth_error (ch' h') i' = Some (a, []) -> nth_error (ch h') i' = Some (a, [])).
Lemma Rewritten_setb ch h i k a es e e' : nth_error (ch h) i = Some (a, es) -> nth_error es k = Some e ->
  Rewritten ch (setb ch h i (a, lset es k e')) h i k e'.
Proof.
  intros Hi Hk. split; [eapply entry_lset_same; eauto|]. split; [intros p Hp; eapply entry_lset_other; eauto|].
  intros h' i' a' Q. rewrite setb_at in Q by (eapply nth_error_lt; eauto). destruct ((h' =? h) && (i =? i')%nat) eqn:EQ; [|exact Q].
  exfalso. assert (QL : lset es k e' = []) by congruence. apply (f_equal (@length entry)) in QL. rewrite lset_length in QL. apply nth_error_lt in Hk. cbn in QL. lia.
Qed.
Lemma Rewritten_trans ch ch1 ch2 h i k e1 e2 : Rewritten ch ch1 h i k e1 -> Rewritten ch1 ch2 h i k e2 -> Rewritten ch ch2 h i k e2.
Proof.
  intros (A1 & A2 & A3) (B1 & B2 & B3). split; [exact B1|]. split; [intros p Hp; rewrite B2, A2 by exact Hp; reflexivity|].
  intros h' i' a Q. apply A3, B3, Q.
Qed.

Lemma Rep_rewritten c s s' own own' ch ch' blocks blocks' h i k e e' : Rep c s own ch blocks ->
  Dsk c (s_disk s') own' ch' (fun _ => 0) None -> Alloc c (s_disk s') own' ch' (s_hdr s') blocks' -> s_dhdr s' = s_hdr s' ->
  0 <= h < c_maxHash c -> Rewritten ch ch' h i k e' -> entry_at ch (h, i, k) = Some e -> e_path e' = e_path e ->
  e_status e' = e_status e ->
  Rep c s' own' ch' blocks'.
Proof.
  intros [R1 R2 R3 R4 R5 R6] DK AL EH Hh (W1 & W2 & W3) HE EP ES.
  assert (X : forall p x, entry_at ch' p = Some x -> exists y, entry_at ch p = Some y /\ e_path x = e_path y /\ e_status x = e_status y).
  { intros p x Hx. destruct p as [[h' i'] k'].
    destruct (Z.eq_dec h' h) as [->|N1]; [destruct (Nat.eq_dec i' i) as [->|N2]; [destruct (Nat.eq_dec k' k) as [->|N3]|]|].
    - rewrite W1 in Hx. inversion Hx; subst x. exists e. auto.
    - rewrite W2 in Hx by congruence. eauto.
    - rewrite W2 in Hx by congruence. eauto.
    - rewrite W2 in Hx by congruence. eauto. }
  split; auto.
  - intros h1 i1 k1 e1 i2 k2 e2 H1 E1 E2 V1 V2 EK. destruct (X _ _ E1) as (y1 & Y1 & P1 & S1). destruct (X _ _ E2) as (y2 & Y2 & P2 & S2).
    apply (R4 h1 i1 k1 y1 i2 k2 y2); auto; unfold live in *; congruence.
  - intros h1 i1 k1 e1 i2 k2 e2 H1 E1 E2 V1 V2 EK. destruct (X _ _ E1) as (y1 & Y1 & P1 & S1). destruct (X _ _ E2) as (y2 & Y2 & P2 & S2).
    apply (R5 h1 i1 k1 y1 i2 k2 y2); auto; unfold live in *; congruence.
  - intros h1 i1 a H1 Q. apply (R6 h1 i1 a H1). apply W3, Q.
Qed.

(** Number of headers of odd length: the size computation of zwriteExisting counts ints, the layout counts words. *)
Definition odd_headers (x : xfer) : Z := zlen (x_ih x) mod 2 + zlen (x_h2 x) mod 2 + zlen (x_uh x) mod 2.
Definition odd_content (ct : content) : Z := zlen (ct_ih ct) mod 2 + zlen (ct_h2 ct) mod 2 + zlen (ct_uh ct) mod 2.
Lemma nlii_mod n : 0 <= n -> 2 * numberLongsInInts n = n + n mod 2.
Proof. intros H. rewrite nlii by lia. pose proof (Z.div_mod (n + 1) 2). pose proof (Z.mod_pos_bound (n + 1) 2). pose proof (Z.div_mod n 2). pose proof (Z.mod_pos_bound n 2). lia. Qed.
Lemma lw_mod l : 2 * lw l = zlen l + zlen l mod 2.
Proof. apply nlii_mod, zlen_nonneg. Qed.
Lemma zlen_ints_at d a n : 0 <= n <= 10000000 -> zlen (ints_at d a n) = n.
Proof.
  intros H. unfold ints_at, zlen. rewrite firstn_length.
  assert (L : forall ws, length (unpack_ints ws) = (2 * length ws)%nat).
  { induction ws as [|w ws IH]; [reflexivity|]. unfold unpack_ints in *. cbn [flat_map]. rewrite app_length, IH. destruct (i8toi4 false w). cbn [length]. lia. }
  rewrite L. unfold words, zseq. rewrite !map_length, seq_length. pose proof (nlii_bounds n (proj1 H)). lia.
Qed.

Lemma grown_alloc_min c n x a : data_ints x <= grown_alloc c n x a.
Proof.
  unfold grown_alloc. cbv zeta. match goal with |- _ <= (if ?v <? _ then _ else _) => generalize v; intros w end.
  destruct (w <? data_ints x) eqn:E; bz; lia.
Qed.

Section EXIST.
Variables (c : cfg) (s : st) (own : Z -> tag) (ch : chains) (blocks : list Z) (x : xfer) (h hash : Z).
Variables (i k : nat) (a : Z) (es : list entry) (e : entry).
Hypothesis WF : wf_cfg c.
Hypothesis RP : Rep c s own ch blocks.
Hypothesis RQ : request_ok x.
Hypothesis EV : odd_headers x <= odd_content (e_ct e).
Hypothesis HP : zhash (c_detune c) (c_maxHash c) (x_path x) = Ok (h, hash).
Hypothesis Hh : 0 <= h < c_maxHash c.
Hypothesis Hi : nth_error (ch h) i = Some (a, es).
Hypothesis Hk : nth_error es k = Some e.
Hypothesis HV : live e.
Hypothesis HK : key (e_path e) = key (x_path x).
Let fs0 := h_fileSize (s_hdr s).
Let L0 := Live c ch.
Let K := fun q => q = key (x_path x).
Let G := GI c fs0 L0 K.

Lemma run_zwriteExisting now prog alloc s1 hb i0 :
  same_file s s1 -> seen c (x_path x) h hash hb a es k e i0 (s_ifl s1) ->
  (forall j, 0 <= j < numInfo (zlen (x_path x)) -> i_info (s_ifl s1) j = s_disk s (e_info e + j)) ->
  data_ints x <= alloc ->
  run G (zwriteExisting c now prog x alloc) s1
    (fun _ s' => type_compatible (ct_type (e_ct e)) (x_type x) = true /\ exists own' ch' e', Ready c fs0 L0 K x own' ch' h i k blocks e' s' /\
       Rewritten ch ch' h i k e' /\ e_path e' = e_path e /\ e_status e' = e_status e /\ e_lw e' = now)
    (fun s' => type_compatible (ct_type (e_ct e)) (x_type x) = false /\ exists ch' e', Rewritten ch ch' h i k e' /\ e_path e' = e_path e /\ e_status e' = e_status e /\ e_ct e' = e_ct e /\ e_lw e' = now /\
       Dsk c (s_disk s') own ch' (fun _ => 0) None /\ Alloc c (s_disk s') own ch' (s_hdr s') blocks /\
       s_hdr s' = s_hdr s /\ s_dhdr s' = s_dhdr s).
Proof.
  intros (F1 & F2 & F3 & F4) ((I1 & I2 & I3 & _) & _ & _ & (J1 & J2 & J3 & _)) IN HAL.
  pose proof WF as (W1 & W2 & W3 & W4 & W5). pose proof RQ as (Q1 & Q2 & Q3 & Q4).
  assert (HE : entry_at ch (h, i, k) = Some e) by (unfold entry_at; rewrite Hi; exact Hk).
  assert (ST : storing e) by (unfold storing, live in *; tauto).
  pose proof (Dsk_eok _ _ _ _ _ _ _ _ _ _ (rp_dsk _ _ _ _ _ RP) Hh HE) as EOK. pose proof EOK as (SH & EH & _).
  assert (LEN : e_len e = zlen (x_path x)).
  { pose proof (e_path_length e SH). pose proof (key_app_inj _ _ HK). destruct SH as (_ & B & _). unfold zlen. lia. }
  assert (EHS : e_hash e = hash) by (rewrite (zhash_key _ _ _ _ HK), HP in EH; congruence).
  pose proof (dk_rec _ _ _ _ _ _ (rp_dsk _ _ _ _ _ RP) h i k e Hh HE ST ltac:(discriminate)) as (R1 & R2 & R3 & cap & R4 & R5 & R6 & R7 & R8).
  pose proof (numInfo_bounds (e_len e) (proj1 (proj2 SH))) as NB. rewrite LEN in *.
  set (n := numInfo (zlen (x_path x))) in *.
  assert (HKK : K (key (e_path e))) by exact HK.
  pose proof (Ctx_exempt c fs0 L0 K (s_disk s) own ch (fun _ => 0) h i k e (rep_ctx c s own ch blocks WF RP K) Hh HE (fun _ => HKK)) as CX.
  pose proof (rp_al _ _ _ _ _ RP) as AL. pose proof (rp_hdr _ _ _ _ _ RP) as EDH.
  assert (G1 : G (s_disk s1, s_dhdr s1)) by (rewrite F1, F2; apply (rep_good c s own ch blocks WF RP K)).
  pose proof (zlen_enc e) as ZE. pose proof (zlen_nonneg (e_words e)) as ZW.
  unfold zwriteExisting. step. step. step. step. cbn [s_disk s_dhdr s_log s_hdr s_ifl].
  set (i1 := set_lwDates _ _ (s_ifl s1)).
  change (i_infoAddInBin i1) with (i_infoAddInBin (s_ifl s1)). change (i_info i1) with (i_info (s_ifl s1)). change (i_len i1) with (i_len (s_ifl s1)).
  change (i_addInfo i1) with (i_addInfo (s_ifl s1)). change (i_firstDate i1) with (i_firstDate (s_ifl s1)). change (i_lastDate i1) with (i_lastDate (s_ifl s1)).
  rewrite J3, J1, I2. fold n.
  set (e1 := mke (e_hash e) (e_status e) (e_len e) (e_info e) (e_tc e) (i_lastWrite i1) (i_dates i1) (e_words e) (e_ct e)).
  step. rewrite F1, F2, F4. eapply (run_set_entry c fs0 L0 K own ch (Some (h, i, k)) blocks h i k a es e e1 5); cbn [s_disk s_dhdr s_log s_hdr s_ifl]; try assumption.
  { rewrite EDH. apply Z.le_refl. }
  { split; [reflexivity|split; reflexivity]. }
  { left. exact ST. }
  { left. reflexivity. } { lia. } { lia. } { discriminate. }
  { rewrite ZE. change (zlen [i_lastWrite i1; i_dates i1]) with 2. lia. }
  { reflexivity. }
  intros d2 OUT2 CX2 AL2 G2. cbn iota. set (ch2 := setb ch h i (a, lset es k e1)) in *.
  assert (RW2 : Rewritten ch ch2 h i k e1) by (eapply Rewritten_setb; eauto).
  assert (E2 : entry_at ch2 (h, i, k) = Some e1) by apply RW2.
  assert (SR : same_rec e e1) by (unfold same_rec; repeat split; auto).
  assert (RD2 : forall y, own y = TRec h i k -> d2 y = s_disk s y) by (intros y Hy; apply OUT2; rewrite Hy; discriminate).
  assert (RO2 : rec_ok d2 own (TRec h i k) e1).
  { apply (same_rec_ok _ _ _ e e1 SR). apply (rec_ok_ext (s_disk s) d2 own own _ e SH); auto. apply (dk_rec _ _ _ _ _ _ (rp_dsk _ _ _ _ _ RP)); auto. discriminate. }
  set (info := i_info (s_ifl s1)) in *.
  assert (IN' : forall j, 0 <= j < numInfo (e_len e) -> info j = (fun j => s_disk s (e_info e + j)) j) by (rewrite LEN; exact IN).
  assert (TY : fst (i8toi4 false (info 4)) = ct_type (e_ct e)) by (rewrite <- R8, IN by lia; reflexivity).
  destruct (i8toi4 false (info 4)) as [type version] eqn:E4. cbn [fst] in TY. rewrite TY.
  destruct (type_compatible (ct_type (e_ct e)) (x_type x)) eqn:TC; cbn [negb].
  2:{ apply run_err; [exact G2|]. split; [reflexivity|]. exists ch2, e1. split; [exact RW2|]. split; [reflexivity|]. split; [reflexivity|]. split; [reflexivity|]. split; [reflexivity|].
      cbn [s_disk s_dhdr s_hdr]. split; [|auto]. eapply Dsk_unexempt; [apply (cx_dsk _ _ _ _ _ _ _ _ _ CX2)|exact E2|auto]. }
  set (originalSize := info 14 + info 16 + info 18 + info 25). set (newSize := zlen (x_ih x) + zlen (x_h2 x) + zlen (x_uh x) + alloc).
  destruct (i8toi4 false (upd info 1 ST_MOVED 5)) as [expNumber expFlag] eqn:E5.
  assert (ED2 : fs0 <= h_fileSize (s_dhdr s)) by (rewrite EDH; apply Z.le_refl).
  assert (Hi2 : nth_error (ch2 h) i = Some (a, lset es k e1)).
  { unfold ch2. rewrite setb_at by (eapply nth_error_lt; eauto). rewrite Z.eqb_refl, Nat.eqb_refl. reflexivity. }
  assert (Hk2 : nth_error (lset es k e1) k = Some e1) by (rewrite lset_nth by (eapply nth_error_lt; eauto); rewrite Nat.eqb_refl; reflexivity).
  assert (LIN : forall j, In j [13; 14; 15; 16; 17; 18; 19; 20; 21; 22; 23; 24; 25; 26; 27] -> 0 <= j < n).
  { intros j Hj. cbn in Hj. lia. }
  pose proof (lw_nonneg (x_ih x)). pose proof (lw_nonneg (x_h2 x)). pose proof (lw_nonneg (x_uh x)).
  pose proof (lw_nonneg (x_v1 x)). pose proof (lw_nonneg (x_v2 x)). pose proof (lw_nonneg (x_v3 x)).
  destruct (originalSize <? newSize) eqn:SZ; bz.
  - (* moved to the end of the file *)
    step. eapply (run_own c fs0 L0 K own ch2 blocks h i k); cbn [s_disk s_dhdr s_log s_hdr s_ifl]; try assumption; try lia.
    { rewrite zlen_tabulate by lia. exact R2. } { rewrite zlen_tabulate by lia. lia. }
    intros d3 D3 OUT3 CX3 AL3 G3. step. step. cbn [s_disk s_dhdr s_log s_hdr s_ifl].
    set (hd3 := add_counts 0 0 0 (originalSize + n) (s_hdr s)).
    set (al := grown_alloc c (expNumber + 1) x alloc).
    pose proof (grown_alloc_min c (expNumber + 1) x alloc) as GM. fold al in GM.
    pose proof (data_ints_nonneg x) as DI. pose proof (nlii_bounds al ltac:(lia)) as NA.
    set (total := n + lw (x_v3 x) + lw (x_ih x) + lw (x_h2 x) + lw (x_uh x) + numberLongsInInts al).
    unfold zgetFileSpace. step. step. step. step. cbn [s_disk s_dhdr s_log s_hdr s_ifl]. apply run_setH; [exact G3|]. apply run_ret; [exact G3|].
    cbv beta. set (address := h_fileSize hd3). fold (grow total hd3). cbn [s_disk s_dhdr s_log s_hdr s_ifl].
    assert (AL3' : Alloc c d3 own ch2 hd3 blocks) by (eapply Alloc_hdr; [exact AL3|unfold same_space; cbn; auto]).
    set (own4 := retag own address total (TRec h i k)).
    assert (AL4 : Alloc c d3 own4 ch2 (grow total hd3) blocks) by (apply Alloc_grow; [exact AL3'|unfold total; lia]).
    assert (CX4 : Ctx c fs0 L0 K d3 own4 ch2 (fun _ => 0) (Some (h, i, k))).
    { eapply Ctx_grow; [exact CX3|exact AL3'|]. intros h' i' k' Q. inversion Q; subst. reflexivity. }
    step. step. cbn [s_disk s_dhdr s_log s_hdr s_ifl].
    set (e3 := mke (e_hash e) (e_status e) (e_len e) address (e_tc e) (i_lastWrite i1) (i_dates i1) (e_words e) (content_of x)).
    step. eapply (run_set_entry c fs0 L0 K own4 ch2 (Some (h, i, k)) blocks h i k a (lset es k e1) e1 e3 3); cbn [s_disk s_dhdr s_log s_hdr s_ifl]; try assumption.
    { split; [reflexivity|split; reflexivity]. }
    { left. exact ST. }
    { left. reflexivity. }
    { rewrite lset_firstn. lia. } { lia. } { discriminate. }
    { rewrite zlen_enc. change (e_words e1) with (e_words e). change (zlen [address]) with 1. lia. }
    { reflexivity. }
    intros d5 OUT5 CX5 AL5 G5. set (ch5 := setb ch2 h i (a, lset (lset es k e1) k e3)) in *.
    assert (RW5 : Rewritten ch ch5 h i k e3) by (eapply Rewritten_trans; [exact RW2|eapply Rewritten_setb; eauto]).
    match goal with |- run _ (modI (set_info ?ff) ;;; _) _ _ _ => set (f := ff) end.
    step. step. cbn [s_disk s_dhdr s_log s_hdr s_ifl].
    assert (AF : 100 <= address) by apply (al_fs _ _ _ _ _ _ AL3').
    assert (OWN4 : forall y, address <= y < address + total -> own4 y = TRec h i k) by (intros y Hy; apply retag_in; exact Hy).
    step. eapply (run_own c fs0 L0 K own4 ch5 blocks h i k); cbn [s_disk s_dhdr s_log s_hdr s_ifl]; try assumption; try lia.
    { rewrite zlen_tabulate by lia. intros y Hy. apply OWN4. unfold total. lia. } { rewrite zlen_tabulate by lia. lia. }
    intros d6 D6 OUT6 CX6 AL6 G6. apply run_ret; [exact G6|]. cbv beta. cbn [s_disk s_dhdr s_log s_hdr s_ifl].
    split; [reflexivity|]. exists own4, ch5, e3. split; [|split; [exact RW5|split; [reflexivity|split; reflexivity]]].
    exists (address + n), (total - n), (fun _ => 0), al. cbn [s_disk s_dhdr s_log s_hdr s_ifl set_info i_info].
    change (e_len e3) with (e_len e). rewrite LEN. fold n. change (e_info e3) with address. change (e_hash e3) with (e_hash e).
    split; [|split; [|split; [|split; [|split; [|split; [|split; [|split; [|split; [|split; [|split; [|split]]]]]]]]]]].
    + split; cbn [s_disk s_dhdr s_log s_hdr s_ifl grow h_fileSize]; auto; try lia.
      * intros y Hy. apply OWN4. lia.
      * exact I.
    + cbn. unfold fs0. unfold total. lia.
    + intros j Hj. cbn in Hj. repeat (destruct Hj as [<-|Hj]; [reflexivity|]). destruct Hj.
    + intros j Hj. rewrite D6, put_tabulate by lia. f_equal. lia.
    + assert (NM : named info e) by (eapply named_ext; [exact IN'|apply SH|exact R3]).
      apply (named_upd info f e e3 NM); try reflexivity; [intros _; change (f 1) with 1; lia|].
      intros y Hy. unfold f, lay_info, upd. cbv zeta. repeat match goal with |- context [y =? ?z] => rewrite (proj2 (Z.eqb_neq y z)) by lia end. reflexivity.
    + etransitivity; [|apply (i4toi8_fst (x_type x) (version + 1) Q3)]. reflexivity.
    + intros y Hy. apply OWN4. unfold total. lia.
    + right. lia.
    + split; [lia|]. apply OWN4. unfold total. lia.
    + rewrite lws_sections. unfold total. unfold data_ints in GM. lia.
    + unfold total. pose proof (nlii_bounds (zlen (x_ih x)) (zlen_nonneg _)). pose proof (nlii_bounds (zlen (x_h2 x)) (zlen_nonneg _)).
      pose proof (nlii_bounds (zlen (x_uh x)) (zlen_nonneg _)). unfold lw in *. lia.
    + reflexivity.
    + split; [apply RW5|reflexivity].
  - (* in place *)
    match goal with |- run _ (modI (set_info ?ff) ;;; _) _ _ _ => set (f := ff) end.
    (* only the ghost content changes *)
    set (e3 := mke (e_hash e) (e_status e) (e_len e) (e_info e) (e_tc e) (i_lastWrite i1) (i_dates i1) (e_words e) (content_of x)).
    set (ch5 := setb ch2 h i (a, lset (lset es k e1) k e3)).
    assert (RW5 : Rewritten ch ch5 h i k e3) by (eapply Rewritten_trans; [exact RW2|eapply Rewritten_setb; eauto]).
    destruct (dk_bin _ _ _ _ _ _ (cx_dsk _ _ _ _ _ _ _ _ _ CX2) h i a _ Hh Hi2) as (B1 & B2 & B3 & B4 & B5).
    assert (ENC : encs (lset (lset es k e1) k e3) = encs (lset es k e1)).
    { destruct (nth_error_split es k Hk) as (l1 & l2 & -> & L). subst k. rewrite !lset_app. rewrite !encs_app, !encs_cons. reflexivity. }
    assert (CX5 : Ctx c fs0 L0 K d2 own ch5 (fun _ => 0) (Some (h, i, k))).
    { eapply Ctx_setentry; [exact CX2|exact Hh|exact Hi2|exact Hk2|split; [reflexivity|split; reflexivity]|left; exact ST|exact HKK|left; reflexivity|reflexivity| |].
      - rewrite B3. unfold bin_words. rewrite ENC. reflexivity.
      - rewrite ENC. exact B4. }
    assert (AL5 : Alloc c d2 own ch5 (s_hdr s) blocks) by (eapply Alloc_setentry; [exact AL2|exact Hi2|reflexivity]).
    step. step. cbn [s_disk s_dhdr s_log s_hdr s_ifl].
    step. eapply (run_own c fs0 L0 K own ch5 blocks h i k); cbn [s_disk s_dhdr s_log s_hdr s_ifl]; try assumption; try lia.
    { rewrite zlen_tabulate by lia. exact R2. } { rewrite zlen_tabulate by lia. lia. }
    intros d6 D6 OUT6 CX6 AL6 G6. apply run_ret; [exact G6|]. cbv beta. cbn [s_disk s_dhdr s_log s_hdr s_ifl].
    split; [reflexivity|]. exists own, ch5, e3. split; [|split; [exact RW5|split; [reflexivity|split; reflexivity]]].
    assert (I13 : info 13 = s_disk s (e_info e + 13)) by (apply IN; lia).
    assert (CAP : lws (sections x) <= cap /\ 2 * (lw (x_ih x) + lw (x_h2 x) + lw (x_uh x)) + (alloc + (originalSize - newSize)) <= 2 * cap).
    { destruct R7 as (C1 & C2 & C3 & _ & _ & _ & _ & _ & _ & _ & _ & _ & R7). rewrite <- (IN 14), <- (IN 16), <- (IN 18), <- (IN 25) in R7 by lia. rewrite <- IN in C1, C2, C3 by lia.
      assert (CN : cnt_ok (info 14) /\ cnt_ok (info 16) /\ cnt_ok (info 18)) by auto.
      rewrite lws_sections. unfold data_ints in HAL.
      assert (OC : odd_content (e_ct e) = info 14 mod 2 + info 16 mod 2 + info 18 mod 2).
      { unfold odd_content. rewrite <- R8. cbn [rec_content ct_ih ct_h2 ct_uh]. rewrite !zlen_ints_at by (rewrite <- ?IN by lia; apply CN). rewrite <- !IN by lia. reflexivity. }
      unfold odd_headers in EV. pose proof (lw_mod (x_ih x)) as V1. pose proof (lw_mod (x_h2 x)) as V2. pose proof (lw_mod (x_uh x)) as V3.
      pose proof (nlii_mod (info 14) (proj1 (proj1 CN))) as V4. pose proof (nlii_mod (info 16) (proj1 (proj1 (proj2 CN)))) as V5. pose proof (nlii_mod (info 18) (proj1 (proj2 (proj2 CN)))) as V6.
      assert (EO : originalSize = info 14 + info 16 + info 18 + info 25) by reflexivity.
      assert (EN : newSize = zlen (x_ih x) + zlen (x_h2 x) + zlen (x_uh x) + alloc) by reflexivity.
      rewrite OC in EV. clear - EO EN EV V1 V2 V3 V4 V5 V6 R7 SZ HAL.
      lia. }
    assert (CP : 0 <= cap) by (destruct CAP as [CAP _]; rewrite lws_sections in CAP; lia).
    exists (info 13), cap, info, (alloc + (originalSize - newSize)). cbn [s_disk s_dhdr s_log s_hdr s_ifl set_info i_info].
    change (e_len e3) with (e_len e). rewrite LEN. fold n. change (e_info e3) with (e_info e). change (e_hash e3) with (e_hash e).
    split; [|split; [|split; [|split; [|split; [|split; [|split; [|split; [|split; [|split; [|split; [|split]]]]]]]]]]].
    + split; cbn [s_disk s_dhdr s_log s_hdr s_ifl grow h_fileSize]; auto; try lia.
      * rewrite I13. destruct (Z.eq_dec cap 0) as [->|NC].
        { assert (s_disk s (e_info e + 13) - 1 < h_fileSize (s_hdr s)); [|lia]. eapply (rep_rec c s own ch blocks RP). apply R5. }
        { assert (s_disk s (e_info e + 13) + cap - 1 < h_fileSize (s_hdr s)); [|lia]. eapply (rep_rec c s own ch blocks RP). apply R4. lia. }
      * rewrite I13. exact R4.
      * exact I.
    + unfold fs0. lia.
    + intros j Hj. cbn in Hj. repeat (destruct Hj as [<-|Hj]; [reflexivity|]). destruct Hj.
    + intros j Hj. rewrite D6, put_tabulate by lia. f_equal. lia.
    + assert (NM : named info e) by (eapply named_ext; [exact IN'|apply SH|exact R3]).
      apply (named_upd info f e e3 NM); try reflexivity; [apply NM|apply NM|].
      intros y Hy. unfold f, lay_info, upd. cbv zeta. repeat match goal with |- context [y =? ?z] => rewrite (proj2 (Z.eqb_neq y z)) by lia end. reflexivity.
    + etransitivity; [|apply (i4toi8_fst (x_type x) (version + 1) Q3)]. reflexivity.
    + exact R2.
    + rewrite I13. exact R6.
    + split; [exact R1|]. rewrite I13. apply R5.
    + apply CAP.
    + apply CAP.
    + reflexivity.
    + split; [apply RW5|]. cbn. exact J1.
Qed.
End EXIST.
