(** * zwrite. *)
From Coq Require Import ZArith List Lia Bool Arith.
From Verif Require Import Base PackModel PackProps HashModel FileModel FileLemmas FileScan FileInv FileDir FileLook FileRead FileAlloc FileBin FileSlot FileUpd FileStep.
Import ListNotations.
Open Scope Z_scope.

(** zwriteInternal.c:380-514. *)
Definition tail (x : xfer) (atEOF : bool) : M unit :=
  i <- getI ;;
  zputi (i_info i 13) (x_ih x) ;;;
  zputi (i_info i 15) (x_h2 x) ;;;
  zputi (i_info i 17) (x_uh x) ;;;
  zputi (i_info i 19) (x_v1 x) ;;;
  zputi (i_info i 21) (x_v2 x) ;;;
  zputi (i_info i 23) (x_v3 x) ;;;
  (if (atEOF : bool) then zwriteEOF else ret tt) ;;;
  zpermWrite.

Lemma run_section_then c fs0 L0 K own ch h i k blocks d0 i0 h0 dh0 base cap ls l a s (m : M unit) Q E :
  Filling c fs0 L0 K own ch (h, i, k) blocks d0 i0 h0 dh0 base cap ls s ->
  a = base + lws ls -> int32s l -> zlen l <= 10000000 -> lws ls + lw l <= cap ->
  (forall s', Filling c fs0 L0 K own ch (h, i, k) blocks d0 i0 h0 dh0 base cap (ls ++ [l]) s' -> run (GI c fs0 L0 K) m s' Q E) ->
  run (GI c fs0 L0 K) (zputi a l ;;; m) s Q E.
Proof.
  intros FL -> H1 H2 H3 HQ. apply run_bind. eapply run_conseq; [eapply run_section; eauto| |intros s' _ R; exact R].
  cbv beta. intros _ s' _ F. apply HQ, F.
Qed.

Lemma run_tail c fs0 L0 K own ch h i k blocks base cap x atEOF f alloc e s E : wf_cfg c -> 0 <= h < c_maxHash c ->
  Filling c fs0 L0 K own ch (h, i, k) blocks (s_disk s) (s_ifl s) (s_hdr s) (s_dhdr s) base cap [] s ->
  request_ok x ->
  fs0 <= h_fileSize (s_hdr s) ->
  (forall j, In j [13; 14; 15; 16; 17; 18; 19; 20; 21; 22; 23; 24; 25; 26; 27] -> i_info (s_ifl s) j = lay_info f base x alloc j) ->
  (forall j, 0 <= j < numInfo (e_len e) -> s_disk s (e_info e + j) = i_info (s_ifl s) j) ->
  named (i_info (s_ifl s)) e -> fst (i8toi4 false (i_info (s_ifl s) 4)) = x_type x ->
  (forall y, e_info e <= y < e_info e + numInfo (e_len e) -> own y = TRec h i k) ->
  (base + cap <= e_info e \/ e_info e + numInfo (e_len e) <= base) -> 0 < e_info e /\ own (base - 1) = TRec h i k ->
  lws (sections x) <= cap -> 2 * (lw (x_ih x) + lw (x_h2 x) + lw (x_uh x)) + alloc <= 2 * cap ->
  e_ct e = content_of x -> entry_at ch (h, i, k) = Some e ->
  run (GI c fs0 L0 K) (tail x atEOF) s
    (fun _ s' => Dsk c (s_disk s') own ch (fun _ => 0) None /\ Alloc c (s_disk s') own ch (s_hdr s') blocks /\
       s_dhdr s' = s_hdr s' /\ s_hdr s' = s_hdr s /\ s_ifl s' = s_ifl s /\
       (forall j, 0 <= j < numInfo (e_len e) -> s_disk s' (e_info e + j) = i_info (s_ifl s) j)) E.
Proof.
  intros WF Hh FL RQ HFS HI HD H3 H4 HOI HDJ HEI HC HA HCT HE.
  pose proof RQ as (R1 & R2 & R3 & R4). unfold sections in R4.
  inversion R4 as [|? ? [I1 B1] R5]. inversion R5 as [|? ? [I2 B2] R6]. inversion R6 as [|? ? [I3 B3] R7].
  inversion R7 as [|? ? [I4 B4] R8]. inversion R8 as [|? ? [I5 B5] R9]. inversion R9 as [|? ? [I6 B6] _]. subst.
  clear R4 R5 R6 R7 R8 R9.
  pose proof (lw_nonneg (x_ih x)). pose proof (lw_nonneg (x_h2 x)). pose proof (lw_nonneg (x_uh x)).
  pose proof (lw_nonneg (x_v1 x)). pose proof (lw_nonneg (x_v2 x)). pose proof (lw_nonneg (x_v3 x)).
  assert (G0 : GI c fs0 L0 K (s_disk s, s_dhdr s)) by (eapply Ctx_GI; [apply (fl_ctx _ _ _ _ _ _ _ _ _ _ _ _ _ _ _ _ FL)|apply (fl_fs _ _ _ _ _ _ _ _ _ _ _ _ _ _ _ _ FL)]).
  assert (SN : shape e) by (eapply Dsk_eok; [apply (cx_dsk _ _ _ _ _ _ _ _ _ (fl_ctx _ _ _ _ _ _ _ _ _ _ _ _ _ _ _ _ FL))|exact Hh|exact HE]).
  pose proof (numInfo_bounds (e_len e) (proj1 (proj2 SN))) as NB.
  rewrite lws_sections in HC.
  unfold tail. step. step.
  rewrite !HI by (cbn; tauto).
  change (lay_info f base x alloc 13) with base.
  change (lay_info f base x alloc 15) with (base + lw (x_ih x)).
  change (lay_info f base x alloc 17) with (base + lw (x_ih x) + lw (x_h2 x)).
  change (lay_info f base x alloc 19) with (base + lw (x_ih x) + lw (x_h2 x) + lw (x_uh x)).
  change (lay_info f base x alloc 21) with (base + lw (x_ih x) + lw (x_h2 x) + lw (x_uh x) + lw (x_v1 x)).
  change (lay_info f base x alloc 23) with (base + lw (x_ih x) + lw (x_h2 x) + lw (x_uh x) + lw (x_v1 x) + lw (x_v2 x)).
  set (d0 := s_disk s) in *. set (i0 := s_ifl s) in *. set (h0 := s_hdr s) in *. set (dh0 := s_dhdr s) in *.

  eapply run_section_then; [exact FL|cbn [lws]; lia|assumption|assumption|cbn [lws]; lia|]. clear FL. intros s1 FL. cbn [app] in FL.
  eapply run_section_then; [exact FL|cbn [lws]; lia|assumption|assumption|cbn [lws]; lia|]. clear FL. intros s2 FL. cbn [app] in FL.
  eapply run_section_then; [exact FL|cbn [lws]; lia|assumption|assumption|cbn [lws]; lia|]. clear FL. intros s3 FL. cbn [app] in FL.
  eapply run_section_then; [exact FL|cbn [lws]; lia|assumption|assumption|cbn [lws]; lia|]. clear FL. intros s4 FL. cbn [app] in FL.
  eapply run_section_then; [exact FL|cbn [lws]; lia|assumption|assumption|cbn [lws]; lia|]. clear FL. intros s5 FL. cbn [app] in FL.
  eapply run_section_then; [exact FL|cbn [lws]; lia|assumption|assumption|cbn [lws]; lia|]. clear FL. intros s6 FL. cbn [app] in FL.
  clear s1 s2 s3 s4 s5. fold (sections x) in FL. destruct FL as [CX AL EH EDH EI FS0 BP BE HO OUT SC].
  assert (LAST : forall s', (forall y, own y <> TFree -> s_disk s' y = s_disk s6 y) -> s_hdr s' = s_hdr s6 -> s_dhdr s' = s_dhdr s6 -> s_ifl s' = s_ifl s6 ->
     run (GI c fs0 L0 K) zpermWrite s'
      (fun _ s' => Dsk c (s_disk s') own ch (fun _ => 0) None /\ Alloc c (s_disk s') own ch (s_hdr s') blocks /\
       s_dhdr s' = s_hdr s' /\ s_hdr s' = h0 /\ s_ifl s' = i0 /\
       (forall j, 0 <= j < numInfo (e_len e) -> s_disk s' (e_info e + j) = i_info i0 j)) E).
  { intros s' D' H' DH' II'.
    assert (FI : forall j, 0 <= j < numInfo (e_len e) -> s_disk s' (e_info e + j) = i_info i0 j).
    { intros j Hj. rewrite D' by (rewrite HOI by lia; discriminate). rewrite OUT by lia. apply HD. exact Hj. }
    assert (CX' : Ctx c fs0 L0 K (s_disk s') own ch (fun _ => 0) (Some (h, i, k))).
    { eapply Ctx_disk; [exact CX|]. intros y Hy. apply D'. apply critical_not in Hy. tauto. }
    apply run_zpermWrite.
    - eapply Ctx_GI; [exact CX'|]. rewrite DH', EDH. rewrite EDH in FS0. exact FS0.
    - eapply Ctx_GI; [exact CX'|]. rewrite H', EH. exact HFS.
    - cbn [s_disk s_dhdr s_hdr s_ifl]. split; [|split; [|split; [reflexivity|split; [congruence|split; [congruence|exact FI]]]]].
      + eapply Dsk_unexempt; [apply (cx_dsk _ _ _ _ _ _ _ _ _ CX')|exact HE|]. intros _.
        destruct (lay_info_spec f base x alloc (fun j => s_disk s' (e_info e + j)) cap RQ) as (L1 & L2 & L3).
        { intros j Hj. rewrite FI; [apply HI; exact Hj|]. cbn in Hj. lia. }
        { rewrite lws_sections. exact HC. }
        { exact HA. }
        unfold rec_ok. cbv zeta. split; [apply HEI|]. split; [exact HOI|]. split; [eapply named_ext; [exact FI|exact (proj1 (proj2 SN))|exact H3]|].
        exists cap. rewrite L1. split; [exact HO|]. split; [split; [exact BP|apply HEI]|]. split; [exact HDJ|]. split; [exact L2|].
        rewrite HCT. apply L3.
        * eapply secs_ext; [|exact SC]. intros y Hy. apply D'. rewrite HO; [discriminate|]. rewrite lws_sections in Hy. lia.
        * rewrite FI by lia. exact H4.
      + rewrite H'. eapply Alloc_disk; [exact AL|]. intros y Hy. apply D'. destruct Hy as [-> | ->]; discriminate. }
  step. destruct atEOF.
  - unfold zwriteEOF. step. apply run_getH; [eapply Ctx_GI; [exact CX|exact FS0]|]. cbv beta.
    assert (G6 : GI c fs0 L0 K (s_disk s6, s_dhdr s6)) by (eapply Ctx_GI; [exact CX|exact FS0]).
    pose proof (al_fs _ _ _ _ _ _ AL) as AF.
    assert (OO : forall y, own y <> TFree -> put (s_disk s6) (h_fileSize (s_hdr s6)) [EOF_FLAG] y = s_disk s6 y).
    { intros y Hy. apply put_out. left. eapply below_free; eauto. }
    apply run_zputw; [exact G6|lia|change (zlen [EOF_FLAG]) with 1; lia|discriminate| |].
    + eapply Ctx_GI; [|exact FS0]. eapply Ctx_disk; [exact CX|]. intros y Hy. apply OO. apply critical_not in Hy. tauto.
    + cbv beta. apply LAST; auto.
  - apply run_ret; [eapply Ctx_GI; [exact CX|exact FS0]|]. cbv beta. apply LAST; auto.
Qed.

(** ** State before the sections are written *)
Definition Ready (c : cfg) (fs0 : Z) (L0 : list Z -> content -> Prop) (K : list Z -> Prop) (x : xfer)
    (own : Z -> tag) (ch : chains) (h : Z) (i k : nat) (blocks : list Z) (e : entry) (s : st) : Prop :=
  exists base cap f alloc,
  Filling c fs0 L0 K own ch (h, i, k) blocks (s_disk s) (s_ifl s) (s_hdr s) (s_dhdr s) base cap [] s /\
  fs0 <= h_fileSize (s_hdr s) /\
  (forall j, In j [13; 14; 15; 16; 17; 18; 19; 20; 21; 22; 23; 24; 25; 26; 27] -> i_info (s_ifl s) j = lay_info f base x alloc j) /\
  (forall j, 0 <= j < numInfo (e_len e) -> s_disk s (e_info e + j) = i_info (s_ifl s) j) /\
  named (i_info (s_ifl s)) e /\ fst (i8toi4 false (i_info (s_ifl s) 4)) = x_type x /\
  (forall y, e_info e <= y < e_info e + numInfo (e_len e) -> own y = TRec h i k) /\
  (base + cap <= e_info e \/ e_info e + numInfo (e_len e) <= base) /\ (0 < e_info e /\ own (base - 1) = TRec h i k) /\
  lws (sections x) <= cap /\ 2 * (lw (x_ih x) + lw (x_h2 x) + lw (x_uh x)) + alloc <= 2 * cap /\
  e_ct e = content_of x /\ entry_at ch (h, i, k) = Some e /\ i_addInfo (s_ifl s) = e_info e.

Lemma run_tail_ready c fs0 L0 K x atEOF own ch h i k blocks e s E : wf_cfg c -> 0 <= h < c_maxHash c -> request_ok x ->
  Ready c fs0 L0 K x own ch h i k blocks e s ->
  run (GI c fs0 L0 K) (tail x atEOF) s
    (fun _ s' => Dsk c (s_disk s') own ch (fun _ => 0) None /\ Alloc c (s_disk s') own ch (s_hdr s') blocks /\
       s_dhdr s' = s_hdr s' /\ s_hdr s' = s_hdr s /\ s_ifl s' = s_ifl s /\
       (forall j, 0 <= j < numInfo (e_len e) -> s_disk s' (e_info e + j) = i_info (s_ifl s) j)) E.
Proof.
  intros WF Hh RQ (base & cap & f & alloc & R1 & R2 & R3 & R4 & R5 & R6 & R7 & R8 & R9 & R10 & R11 & R12 & R13 & _).
  eapply run_tail; eauto.
Qed.

Lemma i4toi8_fst a b : in32 a -> fst (i8toi4 false (i4toi8 false a b)) = a.
Proof.
  intros Ha. rewrite i4toi8_value, i8toi4_value. cbn [fst]. rewrite (Z.mul_comm 4294967296), Z.mod_add, Z.mod_mod by lia. apply sgn32_mod, Ha.
Qed.

Lemma data_ints_nonneg x : 0 <= data_ints x.
Proof. unfold data_ints. pose proof (lw_nonneg (x_v1 x)). pose proof (lw_nonneg (x_v2 x)). pose proof (lw_nonneg (x_v3 x)). lia. Qed.

(** How the directory changes when a record is added. *)
Definition Placed (c : cfg) (ch ch' : chains) (h : Z) (i k : nat) (e : entry) : Prop :=
  entry_at ch' (h, i, k) = Some e /\
  (forall p, p <> (h, i, k) -> entry_at ch' p = entry_at ch p) /\
  (forall e0, entry_at ch (h, i, k) = Some e0 -> e_status e0 = 11 \/ e_status e0 = 12) /\
  (forall i' k' e', entry_at ch (h, i', k') = Some e' -> e_status e' = 11 -> key (e_path e') = key (e_path e) -> ~ pos_lt i' k' i k) /\
  (forall h' i' a, 0 <= h' < c_maxHash c -> nth_error (ch' h') i' <> Some (a, [])).

Section WRITE.
Variables (c : cfg) (s : st) (own : Z -> tag) (ch : chains) (blocks : list Z) (x : xfer) (h hash : Z).
Hypothesis WF : wf_cfg c.
Hypothesis RP : Rep c s own ch blocks.
Hypothesis RQ : request_ok x.
Hypothesis HP : zhash (c_detune c) (c_maxHash c) (x_path x) = Ok (h, hash).
Hypothesis Hh : 0 <= h < c_maxHash c.
Let fs0 := h_fileSize (s_hdr s).
Let L0 := Live c ch.
Let K := fun q => q = key (x_path x).
Let G := GI c fs0 L0 K.

(** zwriteNew on the state left by an unsuccessful lookup. *)
Lemma run_zwriteNew now prog alloc s1 E :
  same_file s s1 ->
  (forall i k e, entry_at ch (h, i, k) = Some e -> key (e_path e) = key (x_path x) -> ~ live e) ->
  safe_slot c (ch h) (zlen (x_path x)) ->
  i_hash (s_ifl s1) = hash -> i_len (s_ifl s1) = zlen (x_path x) -> i_addTable (s_ifl s1) = h + c_hashStart c ->
  i_hashBin (s_ifl s1) = head_addr 0 (ch h) -> i_withSpace (s_ifl s1) = roomc (zlen (x_path x)) (ch h) ->
  match ch h with
  | [] => True
  | b :: t => i_binCur (s_ifl s1) = fst (last_b t b) /\ i_bin (s_ifl s1) = bin_words (c_binSize c) (snd (last_b t b)) 0
  end ->
  data_ints x <= alloc ->
  run G (zwriteNew c now prog x alloc) s1
    (fun _ s' => exists own' ch' blocks' i k e, Ready c fs0 L0 K x own' ch' h i k blocks' e s' /\
       Placed c ch ch' h i k e /\ e_path e = x_path x /\ live e /\ e_lw e = now) E.
Proof.
  intros SF NLV SS IH IL IA HB WS BL HAL.
  pose proof WF as (W1 & W2 & W3 & W4 & W5). pose proof RQ as (Q1 & Q2 & Q3 & Q4).
  set (path := x_path x) in *.
  destruct SF as (F1 & F2 & F3 & F4).
  pose proof (rep_ctx c s own ch blocks WF RP K) as CX. fold fs0 L0 in CX.
  pose proof (rp_al _ _ _ _ _ RP) as AL. pose proof (rp_hdr _ _ _ _ _ RP) as EDH.
  assert (G1 : G (s_disk s1, s_dhdr s1)) by (rewrite F1, F2; apply (rep_good c s own ch blocks WF RP K)).
  unfold zwriteNew. step. step. step. step. cbn [s_disk s_dhdr s_log s_hdr s_ifl].
  set (i1 := set_lwDates _ _ (s_ifl s1)).
  change (i_hashBin i1) with (i_hashBin (s_ifl s1)). change (i_addTable i1) with (i_addTable (s_ifl s1)). change (i_len i1) with (i_len (s_ifl s1)).
  set (s2 := mkst (s_disk s1) (s_dhdr s1) (s_log s1) (s_hdr s1) i1).
  pose proof (numInfo_bounds (zlen path) (conj (zlen_nonneg _) Q1)) as NB.
  pose proof (data_ints_nonneg x) as DI.
  pose proof (nlii_bounds alloc ltac:(lia)) as NA.
  pose proof (lw_nonneg (x_ih x)). pose proof (lw_nonneg (x_h2 x)). pose proof (lw_nonneg (x_uh x)).
  set (n := numInfo (zlen path)) in *.
  set (total := n + lw (x_ih x) + lw (x_h2 x) + lw (x_uh x) + numberLongsInInts alloc).
  assert (MAIN : forall own3 ch3 blocks3 s3 b t,
    Ctx c fs0 L0 K (s_disk s3) own3 ch3 (fun _ => 0) None -> Alloc c (s_disk s3) own3 ch3 (s_hdr s3) blocks3 ->
    s_dhdr s3 = s_dhdr s -> h_fileSize (s_hdr s) <= h_fileSize (s_hdr s3) ->
    ch3 h = b :: t -> (forall p, entry_at ch3 p = entry_at ch p) ->
    i_hash (s_ifl s3) = hash -> i_len (s_ifl s3) = zlen path -> i_hashBin (s_ifl s3) <> 0 ->
    i_withSpace (s_ifl s3) = roomc (zlen path) (ch3 h) ->
    i_binCur (s_ifl s3) = fst (last_b t b) -> i_bin (s_ifl s3) = bin_words (c_binSize c) (snd (last_b t b)) 0 -> i_lastWrite (s_ifl s3) = now ->
    ((forall i a es, nth_error (ch3 h) i = Some (a, es) -> a < fs0) /\ Z.of_nat (length (ch3 h)) <= fs0) \/ ch3 h = [(fst b, [])] ->
    (forall h' i' a, 0 <= h' < c_maxHash c -> nth_error (ch3 h') i' = Some (a, []) -> h' = h /\ ch3 h = [(a, [])]) ->
    safe_slot c (ch3 h) (zlen path) ->
    run G (if 100 <? n then errM else
      address <- zgetFileSpace total ;;
      zbinUpdate c (x_path x) address 1 (x_type x) ;;;
      i <- getI ;;
      modI (set_info (path_info (firstn (Z.to_nat (i_len i)) (x_path x)) (i_len i)
        (upd (upd (upd (upd (upd (upd (upd (upd (lay_info (upd (upd (upd (upd (fun _ => 0) 0 INFO_FLAG) 1 ST_PRIMARY) 2 (i_len i)) 3 (i_hash i)) (address + n) x alloc)
            4 (i4toi8 false (x_type x) 1)) 5 (i4toi8 false 0 0)) 6 now) 11 now) 9 (i_firstDate i)) 10 (i_lastDate i)) 7 (fst prog)) 8 (snd prog)))) ;;;
      zputw (i_addInfo i) (tabulate (path_info (firstn (Z.to_nat (i_len i)) (x_path x)) (i_len i)
        (upd (upd (upd (upd (upd (upd (upd (upd (lay_info (upd (upd (upd (upd (fun _ => 0) 0 INFO_FLAG) 1 ST_PRIMARY) 2 (i_len i)) 3 (i_hash i)) (address + n) x alloc)
            4 (i4toi8 false (x_type x) 1)) 5 (i4toi8 false 0 0)) 6 now) 11 now) 9 (i_firstDate i)) 10 (i_lastDate i)) 7 (fst prog)) 8 (snd prog))) n) ;;;
      modH (add_counts 1 0 0 0)) s3
    (fun _ s' => exists own' ch' blocks' i k e, Ready c fs0 L0 K x own' ch' h i k blocks' e s' /\
       Placed c ch ch' h i k e /\ e_path e = x_path x /\ live e /\ e_lw e = now) E).
  { intros own3 ch3 blocks3 s3 b t CX3 AL3 DH3 FS3 EC3 EN3 IH3 IL3 HB3 WS3 BC3 BN3 LW3 HA3 EB3 SS3.
    assert (HD3 : fs0 <= h_fileSize (s_dhdr s3)) by (rewrite DH3, EDH; apply Z.le_refl).
    assert (G3 : G (s_disk s3, s_dhdr s3)) by (eapply Ctx_GI; eauto).
    rewrite ltb_f by lia. unfold zgetFileSpace. step. step. step. step. apply run_setH; [exact G3|]. apply run_ret; [exact G3|].
    cbv beta. set (address := h_fileSize (s_hdr s3)). fold (grow total (s_hdr s3)).
    set (own4 := retag own3 address total TPend).
    set (s4 := mkst (s_disk s3) (s_dhdr s3) (s_log s3) (grow total (s_hdr s3)) (s_ifl s3)).
    assert (AL4 : Alloc c (s_disk s4) own4 ch3 (s_hdr s4) blocks3) by (apply Alloc_grow; [exact AL3|unfold total; lia]).
    assert (CX4 : Ctx c fs0 L0 K (s_disk s4) own4 ch3 (fun _ => 0) None) by (eapply Ctx_grow; [exact CX3|exact AL3|intros; discriminate]).
    step. eapply run_conseq; [eapply (run_zbinUpdate c fs0 L0 K h hash path address 1 (x_type x) (content_of x) WF Hh HP Q1 Q2)
      with (own := own4) (ch := ch3) (blocks := blocks3) (b := b) (t := t)| |intros s' _ Q; exact Q]; try assumption.
    { unfold K. reflexivity. } { lia. }
    { intros i k e HE. rewrite EN3 in HE. apply NLV with (i := i) (k := k). exact HE. }
    cbv beta. intros _ s5 G5 (i & k & own5 & ch5 & blocks5 & e & CX5 & AL5 & E5 & (EP & EST & EI & ECT & ELW) & EO5 & ER5 & EL5 & EB5 & EI5 & GR5 & DI5 & DH5 & FS5 & _ & (J1 & J2 & J3 & J4 & J5 & J6)).
    cbn [s_disk s_dhdr s_log s_hdr s_ifl h_fileSize] in J1, J2, FS5, DH5, J4, J5, J6.
    step. step. rewrite J1, J2, J3, IL3, IH3.
    match goal with |- run _ (modI (set_info ?ff) ;;; _) _ _ _ => set (f := ff) end.
    step. step. step. cbn [s_disk s_dhdr s_log s_hdr s_ifl].
    (* the new words of the file belong to the new record *)
    assert (PEND : forall y, address <= y < address + total -> own5 y = TPend).
    { intros y Hy. destruct GR5 as [GR5 _]. rewrite GR5; unfold own4; rewrite retag_in by exact Hy; congruence. }
    set (own6 := retag own5 address total (TRec h i k)).
    assert (CX6 : Ctx c fs0 L0 K (s_disk s5) own6 ch5 (fun _ => 0) (Some (h, i, k))).
    { eapply Ctx_ext; [exact CX5|auto| |].
      - intros y Hy. apply critical_not in Hy. apply retag_out.
        destruct (Z.lt_ge_cases y address); [left; lia|]. destruct (Z.lt_ge_cases y (address + total)); [|right; lia]. rewrite PEND in Hy by lia. tauto.
      - intros y h1 i1' k1 Hy. unfold own6, retag in Hy. destruct ((address <=? y) && (y <? address + total)); [right; congruence|left; exact Hy]. }
    assert (AL6 : Alloc c (s_disk s5) own6 ch5 (s_hdr s5) blocks5).
    { eapply Alloc_ext; try exact AL5; try reflexivity; try lia.
      - intros y Hy. split; [reflexivity|]. apply retag_out.
        destruct (Z.lt_ge_cases y address); [left; lia|]. destruct (Z.lt_ge_cases y (address + total)); [|right; lia]. rewrite PEND in Hy by lia. destruct Hy; discriminate.
      - intros y Hy. unfold own6. rewrite retag_out by lia. apply (al_free _ _ _ _ _ _ AL5). exact Hy. }
    assert (ADP : 100 <= address) by apply (al_fs _ _ _ _ _ _ AL3).
    set (d7 := put (s_disk s5) address (tabulate f n)).
    assert (ZT : zlen (tabulate f n) = n) by (apply zlen_tabulate; lia).
    assert (O7 : forall y, own6 y <> TRec h i k -> d7 y = s_disk s5 y).
    { intros y Hy. unfold d7. apply put_out. rewrite ZT. destruct (Z.lt_ge_cases y address); [left; lia|]. destruct (Z.lt_ge_cases y (address + n)); [|right; lia].
      exfalso. apply Hy. unfold own6. apply retag_in. unfold total. lia. }
    assert (CX7 : Ctx c fs0 L0 K d7 own6 ch5 (fun _ => 0) (Some (h, i, k))).
    { eapply Ctx_disk; [exact CX6|]. intros y Hy. apply O7. intros Q. revert Hy. apply critical_own. exact Q. }
    assert (G7 : G (d7, s_dhdr s5)) by (eapply Ctx_GI; [exact CX7|rewrite DH5; exact HD3]).
    apply run_zputw; cbn [s_disk s_dhdr s_log s_hdr s_ifl]; [exact G5|unfold total in *; lia|lia| |exact G7|].
    { intros Q. rewrite Q in ZT. change (zlen (@nil Z)) with 0 in ZT. lia. }
    fold d7. step. cbn [s_disk s_dhdr s_log s_hdr s_ifl].
    assert (EOK : eok c h e) by (eapply Dsk_eok; [apply (cx_dsk _ _ _ _ _ _ _ _ _ CX7)|exact Hh|exact E5]).
    assert (EHS : e_hash e = hash) by (destruct EOK as (_ & Q & _); rewrite EP, HP in Q; congruence).
    assert (ELN : e_len e = zlen path).
    { destruct EOK as (Q & _). pose proof (e_path_length e Q) as L1. rewrite EP in L1. destruct Q as (_ & Q & _). unfold zlen. lia. }
    exists own6, ch5, blocks5, i, k, e. split; [|split; [|split; [exact EP|split; [right; exact EST|rewrite ELW; exact LW3]]]].
    - exists (address + n), (total - n), (upd (upd (upd (upd (fun _ => 0) 0 INFO_FLAG) 1 ST_PRIMARY) 2 (zlen path)) 3 hash), alloc.
      cbn [s_disk s_dhdr s_log s_hdr s_ifl i_info set_info]. rewrite ELN, EI. fold n.
      split; [|split; [|split; [|split; [|split; [|split; [|split; [|split; [|split; [|split; [|split; [|split]]]]]]]]]]].
      + split; cbn [s_disk s_dhdr s_log s_hdr s_ifl add_counts h_fileSize]; auto; try lia.
        * eapply Alloc_hdr; [|unfold same_space; cbn; auto]. eapply Alloc_disk; [exact AL6|]. intros y Hy. apply O7. destruct Hy as [-> | ->]; discriminate.
        * rewrite DH5. exact HD3.
        * intros y Hy. unfold TR, own6. apply retag_in. lia.
        * exact I.
      + cbn. unfold fs0. lia.
      + intros j Hj. cbn in Hj. repeat (destruct Hj as [<-|Hj]; [reflexivity|]). destruct Hj.
      + intros j Hj. unfold d7. rewrite put_tabulate by lia. f_equal. lia.
      + apply named_new; [exact Q2|exact Q1|exact EP|exact ELN|rewrite EHS; reflexivity|reflexivity..].
      + etransitivity; [|apply (i4toi8_fst (x_type x) 1 Q3)]. reflexivity.
      + intros y Hy. unfold own6. apply retag_in. unfold total. lia.
      + right. lia.
      + split; [lia|]. unfold own6. apply retag_in. unfold total. lia.
      + rewrite lws_sections. unfold total. unfold data_ints in HAL. pose proof (nlii_bounds alloc). lia.
      + unfold total. pose proof (nlii_bounds (zlen (x_ih x)) (zlen_nonneg _)). pose proof (nlii_bounds (zlen (x_h2 x)) (zlen_nonneg _)).
        pose proof (nlii_bounds (zlen (x_uh x)) (zlen_nonneg _)). unfold lw. lia.
      + exact ECT.
      + split; [exact E5|]. cbn. exact J3.
    - split; [exact E5|]. split.
      { intros [[h' i'] k'] HN. rewrite EO5 by exact HN. apply EN3. }
      split. { intros e0 E0. apply ER5. rewrite EN3. exact E0. }
      split. { intros i' k' e' E0 S0 K0. apply (EL5 i' k' e'); [rewrite EN3; exact E0|exact S0|rewrite K0, EP; reflexivity]. }
      intros h' i' a Hh' Q. destruct (EB5 h' i' a Q) as [T1 T2]. destruct (EB3 h' i' a Hh' T1) as [-> T3].
      rewrite T3 in T1. destruct EI5 as [EI5|EI5]; [|exact (EI5 a T3)]. rewrite T3 in EI5. cbn [length] in EI5.
      destruct i' as [|[|i']]; try discriminate. apply T2. f_equal. lia. }
  destruct (ch h) as [|b t] eqn:EC.
  - cbn [head_addr] in HB. rewrite HB. cbn [Z.eqb]. rewrite IA.
    step. rewrite <- F1, <- F4 in AL. rewrite <- F1 in CX.
    eapply run_conseq; [eapply (run_zbinFirst c fs0 L0 K own ch None blocks h s2 WF Hh)| |intros s' _ Q; exact Q]; try assumption.
    { intros i a es Hi. rewrite EC in Hi. destruct i; discriminate. }
    { rewrite EC. cbn. pose proof (rep_hash c s own ch blocks RP). unfold fs0. lia. }
    { change (s_dhdr s2) with (s_dhdr s1). rewrite F2, EDH. apply Z.le_refl. }
    cbv beta. intros _ s3 G3 (nb & (own3 & blocks3 & CX3 & AL3 & GR3 & TP3 & TR3) & DH3 & IF3 & NB3 & FS3 & _ & NR3 & ND3).
    assert (CH3 : addb ch h (nb, []) h = [(nb, [])]) by (unfold addb; rewrite Z.eqb_refl, EC; reflexivity).
    rewrite IL. fold n. apply (MAIN own3 (addb ch h (nb, [])) blocks3 s3 (nb, []) []); auto.
    + rewrite DH3. exact F2.
    + change (s_hdr s2) with (s_hdr s1) in FS3. rewrite F4 in FS3. exact FS3.
    + intros [[h' i'] k']. apply entry_addb.
    + rewrite IF3. cbn. exact IH.
    + rewrite IF3. cbn. exact IL.
    + rewrite IF3. cbn. lia.
    + rewrite IF3, CH3. cbn. exact WS.
    + rewrite IF3. reflexivity.
    + rewrite IF3. cbn [last_b snd i_bin set_hashBin set_bin]. symmetry. apply bin_words_empty. lia.
    + rewrite IF3. reflexivity.
    + intros h' i' a Hh' Q. rewrite addb_at, EC in Q. cbn [length] in Q. destruct ((h' =? h) && (i' =? 0)%nat) eqn:QQ.
      * assert (QA : nb = a) by congruence. rewrite <- QA. apply andb_prop in QQ. destruct QQ as [T _]. bz. auto.
      * exfalso. exact (rp_bins _ _ _ _ _ RP h' i' a Hh' Q).
    + rewrite CH3. intros i es Hi HR. cbn in HR. lia.
  - assert (HB0 : i_hashBin (s_ifl s1) <> 0).
    { rewrite HB. destruct b as [a0 es0]. cbn [head_addr]. destruct (rep_bin c s own ch blocks WF RP h 0 a0 es0 Hh); [rewrite EC; reflexivity|lia]. }
    rewrite (proj2 (Z.eqb_neq _ 0) HB0). step. apply run_ret; [exact G1|]. cbv beta. rewrite IL. fold n.
    destruct BL as [BC BN].
    assert (BF : forall i a es, nth_error (ch h) i = Some (a, es) -> a < fs0).
    { intros i a es Hi. destruct (rep_bin c s own ch blocks WF RP h i a es Hh Hi). unfold fs0. lia. }
    apply (MAIN own ch blocks s2 b t); unfold s2; cbn [s_disk s_dhdr s_log s_hdr s_ifl]; auto; try (rewrite ?EC; assumption).
    + rewrite F1. exact CX.
    + rewrite F1, F4. exact AL.
    + rewrite F4. lia.
    + left. split; [exact BF|]. apply (rep_len c s own ch blocks WF RP h Hh).
    + intros h' i' a Hh' Q. exfalso. exact (rp_bins _ _ _ _ _ RP h' i' a Hh' Q).
Qed.
End WRITE.
