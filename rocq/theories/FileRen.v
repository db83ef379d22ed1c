(** * zrename. *)
From Coq Require Import ZArith List Lia Bool Arith.
From Verif Require Import Base PackModel PackProps HashModel FileModel FileLemmas FileScan FileInv FileDir FileLook FileRead FileAlloc FileBin FileSlot FileUpd FileStep FileWrite FileExist FileOps FileDel.
Import ListNotations.
Open Scope Z_scope.

Lemma run_weaken (G G' : image -> Prop) {A} (m : M A) s Q E : (forall im, G im -> G' im) -> run G m s Q E -> run G' m s Q E.
Proof.
  intros HG. assert (AP : forall a b, allpre G a b -> allpre G' a b) by (intros a b (ws & H1 & H2 & H3); exists ws; auto).
  unfold run. destruct (m s) as [a s'|s'|]; [intros [H1 H2]; auto|intros [H1 H2]; auto|auto].
Qed.

(** Words of a record whose entry no longer points to it. *)
Lemma tag_eq_dec (a b : tag) : {a = b} + {a <> b}.
Proof. decide equality; try apply Z.eq_dec; apply Nat.eq_dec. Qed.
Definition rel (own : Z -> tag) (h : Z) (i k : nat) (x : Z) : tag := if tag_eq_dec (own x) (TRec h i k) then TPend else own x.
Lemma rel_in own h i k x : own x = TRec h i k -> rel own h i k x = TPend.
Proof. intros H. unfold rel. destruct (tag_eq_dec (own x) (TRec h i k)); [reflexivity|contradiction]. Qed.
Lemma rel_out own h i k x : own x <> TRec h i k -> rel own h i k x = own x.
Proof. intros H. unfold rel. destruct (tag_eq_dec (own x) (TRec h i k)); [contradiction|reflexivity]. Qed.
Lemma rel_other own h i k x t : rel own h i k x = t -> t <> TPend -> own x = t.
Proof. unfold rel. destruct (tag_eq_dec (own x) (TRec h i k)); congruence. Qed.

Lemma Ctx_release c fs0 L0 K d own ch dang h i k : Ctx c fs0 L0 K d own ch dang None ->
  (forall e, entry_at ch (h, i, k) = Some e -> ~ storing e) -> Ctx c fs0 L0 K d (rel own h i k) ch dang None.
Proof.
  intros [DK LM KP] HN. split; [|destruct LM; split; auto|exact KP].
  - pose proof DK as DK0. destruct DK as [DH DB DR]. split.
    + intros h' Hh. destruct (DH h' Hh) as [E1 E2]. split; [|exact E2]. rewrite rel_out by congruence. exact E1.
    + intros h' i' a es Hh Hi. destruct (DB h' i' a es Hh Hi) as (E1 & E2 & E3). split; [exact E1|]. split; [|exact E3].
      intros x Hx. rewrite rel_out by (rewrite E2 by exact Hx; discriminate). auto.
    + intros h' i' k' e Hh HE HS HX. pose proof (Dsk_eok _ _ _ _ _ _ _ _ _ _ DK0 Hh HE) as (SH & _).
      apply (rec_ok_ext d d own (rel own h i k)); auto. intros x Hx. rewrite rel_out; [exact Hx|]. rewrite Hx. intros Q. inversion Q; subst. exact (HN e HE HS).
  - intros h' i' k' x Hx. apply rel_other in Hx; [|discriminate]. eauto.
Qed.
Lemma Alloc_release c d own ch hd blocks h i k : Alloc c d own ch hd blocks -> Alloc c d (rel own h i k) ch hd blocks.
Proof.
  intros AL. eapply Alloc_ext; try exact AL; try reflexivity; try lia.
  - intros x Hx. split; [reflexivity|]. apply rel_out. destruct Hx as [-> | ->]; discriminate.
  - intros x Hx. rewrite rel_out; [apply (al_free _ _ _ _ _ _ AL), Hx|]. rewrite (al_free _ _ _ _ _ _ AL) by exact Hx. discriminate.
Qed.

(** Words that belong to no entry. *)
Lemma run_pend c fs0 L0 K own ch ex blocks a ws s (Q : unit -> st -> Prop) (E : st -> Prop) :
  Ctx c fs0 L0 K (s_disk s) own ch (fun _ => 0) ex -> Alloc c (s_disk s) own ch (s_hdr s) blocks ->
  fs0 <= h_fileSize (s_dhdr s) -> (forall x, a <= x < a + zlen ws -> own x = TPend) -> 0 <= a -> 0 < zlen ws <= 10000 ->
  (forall d', d' = put (s_disk s) a ws ->
     (forall x, own x <> TPend -> d' x = s_disk s x) ->
     Ctx c fs0 L0 K d' own ch (fun _ => 0) ex -> Alloc c d' own ch (s_hdr s) blocks ->
     GI c fs0 L0 K (d', s_dhdr s) ->
     Q tt (mkst d' (s_dhdr s) (s_log s ++ [WWords a ws]) (s_hdr s) (s_ifl s))) ->
  run (GI c fs0 L0 K) (zputw a ws) s Q E.
Proof.
  intros CX AL FS HO HA HW HQ. set (d' := put (s_disk s) a ws) in *.
  assert (OUT : forall x, own x <> TPend -> d' x = s_disk s x).
  { intros x Hx. unfold d'. apply put_out. destruct (Z.lt_ge_cases x a); [left; lia|]. destruct (Z.lt_ge_cases x (a + zlen ws)); [|right; lia].
    exfalso. apply Hx, HO. lia. }
  assert (CX' : Ctx c fs0 L0 K d' own ch (fun _ => 0) ex).
  { eapply Ctx_disk; [exact CX|]. intros x Hx. apply OUT. apply critical_not in Hx. tauto. }
  assert (G' : GI c fs0 L0 K (d', s_dhdr s)) by (eapply Ctx_GI; eauto).
  assert (a < h_fileSize (s_hdr s)) by (eapply below_free; [exact AL|rewrite (HO a) by lia; discriminate]).
  apply run_zputw; [eapply Ctx_GI; eauto|lia|lia| |exact G'|].
  - intros ->. change (zlen (@nil Z)) with 0 in HW. lia.
  - apply HQ; auto. eapply Alloc_disk; [exact AL|]. intros x Hx. apply OUT. destruct Hx as [-> | ->]; discriminate.
Qed.

(** A name looked up without success, then its first bin made if there is none (zwriteNew.c:166-191, zrename.c:310-330). *)
Definition first_bin (c : cfg) : M unit :=
  i <- getI ;;
  if i_hashBin i =? 0 then
     zbinNew c ;;;
     i' <- getI ;;
     modI (set_hashBin (i_binCur i')) ;;;
     zputw (i_addTable i) [i_binCur i']
  else ret tt.

Lemma run_first_bin c fs0 L0 K own ch blocks h hash len s E :
  wf_cfg c -> 0 <= h < c_maxHash c -> 0 < fs0 ->
  Ctx c fs0 L0 K (s_disk s) own ch (fun _ => 0) None -> Alloc c (s_disk s) own ch (s_hdr s) blocks -> fs0 <= h_fileSize (s_dhdr s) ->
  i_hash (s_ifl s) = hash -> i_len (s_ifl s) = len -> i_addTable (s_ifl s) = h + c_hashStart c ->
  i_hashBin (s_ifl s) = head_addr 0 (ch h) -> i_withSpace (s_ifl s) = roomc len (ch h) ->
  match ch h with
  | [] => True
  | b :: t => i_binCur (s_ifl s) = fst (last_b t b) /\ i_bin (s_ifl s) = bin_words (c_binSize c) (snd (last_b t b)) 0
  end ->
  (forall i a es, nth_error (ch h) i = Some (a, es) -> a < fs0) -> Z.of_nat (length (ch h)) <= fs0 ->
  (forall h' i' a, 0 <= h' < c_maxHash c -> nth_error (ch h') i' <> Some (a, [])) ->
  safe_slot c (ch h) len ->
  run (GI c fs0 L0 K) (first_bin c) s
    (fun _ s' => exists own' ch' blocks' b t,
       Ctx c fs0 L0 K (s_disk s') own' ch' (fun _ => 0) None /\ Alloc c (s_disk s') own' ch' (s_hdr s') blocks' /\
       s_dhdr s' = s_dhdr s /\ h_fileSize (s_hdr s) <= h_fileSize (s_hdr s') /\
       ch' h = b :: t /\ (forall p, entry_at ch' p = entry_at ch p) /\
       (i_hash (s_ifl s') = hash /\ i_len (s_ifl s') = len /\ i_hashBin (s_ifl s') <> 0 /\ i_withSpace (s_ifl s') = roomc len (ch' h) /\
        i_binCur (s_ifl s') = fst (last_b t b) /\ i_bin (s_ifl s') = bin_words (c_binSize c) (snd (last_b t b)) 0 /\
        i_info (s_ifl s') = i_info (s_ifl s)) /\
       (((forall i a es, nth_error (ch' h) i = Some (a, es) -> a < fs0) /\ Z.of_nat (length (ch' h)) <= fs0) \/ ch' h = [(fst b, [])]) /\
       (forall h' i' a, 0 <= h' < c_maxHash c -> nth_error (ch' h') i' = Some (a, []) -> h' = h /\ ch' h = [(a, [])]) /\
       safe_slot c (ch' h) len /\ own_grows own own' /\
       (forall x, own x = TPend -> s_disk s' x = s_disk s x)) E.
Proof.
  intros WF Hh FP CX AL HD IH IL IA HB WS BL HF HL EB SS. pose proof WF as (W1 & W2 & W3 & W4 & W5).
  assert (G0 : GI c fs0 L0 K (s_disk s, s_dhdr s)) by (eapply Ctx_GI; eauto).
  unfold first_bin. step. step.
  destruct (ch h) as [|b t] eqn:EC.
  - cbn [head_addr] in HB. rewrite HB. cbn [Z.eqb]. rewrite IA.
    eapply run_conseq; [eapply (run_zbinFirst c fs0 L0 K own ch None blocks h s WF Hh)| |intros s' _ Q; exact Q]; try assumption.
    { intros i a es Hi. rewrite EC in Hi. destruct i; discriminate. }
    { rewrite EC. cbn. lia. }
    cbv beta. intros _ s3 G3 (nb & (own3 & blocks3 & CX3 & AL3 & GR3 & TP3 & TR3) & DH3 & IF3 & NB3 & FS3 & _ & NR3 & ND3).
    assert (CH3 : addb ch h (nb, []) h = [(nb, [])]) by (unfold addb; rewrite Z.eqb_refl, EC; reflexivity).
    exists own3, (addb ch h (nb, [])), blocks3, (nb, []), [].
    split; [exact CX3|]. split; [exact AL3|]. split; [exact DH3|]. split; [exact FS3|]. split; [exact CH3|].
    split. { intros [[h' i'] k']. apply entry_addb. }
    split. { rewrite IF3, CH3. cbn [last_b snd fst]. cbn. split; [exact IH|]. split; [exact IL|]. split; [lia|]. split; [exact WS|]. split; [reflexivity|]. split; [|reflexivity].
             symmetry. apply bin_words_empty. lia. }
    split; [right; exact CH3|]. split.
    { intros h' i' a Hh' Q. rewrite addb_at, EC in Q. cbn [length] in Q. destruct ((h' =? h) && (i' =? 0)%nat) eqn:QQ.
      - assert (QA : nb = a) by congruence. rewrite <- QA. apply andb_prop in QQ. destruct QQ as [T _]. bz. auto.
      - exfalso. exact (EB h' i' a Hh' Q). }
    split. { rewrite CH3. intros i es Hi HR. cbn in HR. lia. }
    split; [exact GR3|exact TP3].
  - assert (HB0 : i_hashBin (s_ifl s) <> 0).
    { rewrite HB. destruct b as [a0 es0]. cbn [head_addr].
      destruct (dk_bin _ _ _ _ _ _ (cx_dsk _ _ _ _ _ _ _ _ _ CX) h 0 a0 es0 Hh) as (B & _); [rewrite EC; reflexivity|lia]. }
    rewrite (proj2 (Z.eqb_neq _ 0) HB0). apply run_ret; [exact G0|].
    exists own, ch, blocks, b, t. destruct BL as [BC BN].
    split; [exact CX|]. split; [exact AL|]. split; [reflexivity|]. split; [lia|]. split; [exact EC|]. split; [reflexivity|].
    rewrite !EC. split; [auto 10|]. split; [left; split; [|exact HL]; intros i a es Q; eapply HF; exact Q|].
    split. { intros h' i' a Hh' Q. exfalso. exact (EB h' i' a Hh' Q). }
    split; [exact SS|]. split; [split; auto|auto].
Qed.

(** zcheck of a record that exists, and of one that does not. *)
Lemma rep_check c s own ch blocks path h hash i k a es e : wf_cfg c -> Rep c s own ch blocks -> zlen path <= 392 ->
  zhash (c_detune c) (c_maxHash c) path = Ok (h, hash) -> 0 <= h < c_maxHash c ->
  nth_error (ch h) i = Some (a, es) -> nth_error es k = Some e -> key (e_path e) = key path -> live e ->
  exists s', zcheckInternal c path 1 s = OK true s' /\ same_file s s' /\ looked c path h hash (s_ifl s) (s_ifl s') /\
    found_at a (s_ifl s') (zlen (encs (firstn k es))) e.
Proof.
  intros WF RP HL HP Hh Hi Hk HK HV. pose proof WF as (W1 & W2 & W3 & W4 & W5).
  assert (HE : entry_at ch (h, i, k) = Some e) by (unfold entry_at; rewrite Hi; exact Hk).
  destruct (zcheck_found c (s_disk s) own ch (fun _ => 0) None h hash path 1 i k a es e s) as (s1 & E1 & SF & LK & _ & _ & FA); auto.
  - apply (rp_dsk _ _ _ _ _ RP).
  - intros i' k' e' HLT HE' EK' HV'.
    destruct (rp_uniq _ _ _ _ _ RP h i k e i' k' e' Hh HE HE' HV HV') as [-> ->]; [congruence|]. unfold pos_lt in HLT. lia.
  - pose proof (rep_hash c s own ch blocks RP). lia.
  - intros i' a' es' _ Q. destruct (rep_bin c s own ch blocks WF RP h i' a' es' Hh Q). lia.
  - apply nth_error_lt in Hi. pose proof (rep_len c s own ch blocks WF RP h Hh). lia.
  - exists s1. auto.
Qed.
Lemma rep_check_none c s own ch blocks path h hash : wf_cfg c -> Rep c s own ch blocks -> zlen path <= 392 ->
  zhash (c_detune c) (c_maxHash c) path = Ok (h, hash) -> 0 <= h < c_maxHash c ->
  (forall i k e, entry_at ch (h, i, k) = Some e -> key (e_path e) = key path -> ~ live e) ->
  exists s', zcheckInternal c path 1 s = OK false s' /\ same_file s s' /\ looked c path h hash (s_ifl s) (s_ifl s').
Proof.
  intros WF RP HL HP Hh HN. pose proof WF as (W1 & W2 & W3 & W4 & W5).
  destruct (zcheck_none c (s_disk s) own ch (fun _ => 0) None h hash path 1 s) as (s1 & E1 & SF & LK & _); auto.
  - apply (rp_dsk _ _ _ _ _ RP).
  - pose proof (rep_hash c s own ch blocks RP). lia.
  - intros i' a' es' Q. destruct (rep_bin c s own ch blocks WF RP h i' a' es' Hh Q). lia.
  - apply (rep_len c s own ch blocks WF RP h Hh).
  - exists s1. auto.
Qed.

(** The end of zrename: the new entry and its info block. *)
Definition ren_tail (c : cfg) (newPath : list Z) (nOld nNew infoAddress len hash : Z) (infoOld : Z -> Z) : M bool :=
  address <- (if nOld <? nNew then zgetFileSpace nNew else ret infoAddress) ;;
  modI (set_info (path_info (firstn (Z.to_nat len) newPath) len (upd (upd (upd (upd (upd infoOld 0 INFO_FLAG) 1 ST_PRIMARY) 2 len) 3 hash) (nNew - 1) 0))) ;;;
  zbinUpdate c newPath address 1 (fst (i8toi4 false ((path_info (firstn (Z.to_nat len) newPath) len (upd (upd (upd (upd (upd infoOld 0 INFO_FLAG) 1 ST_PRIMARY) 2 len) 3 hash) (nNew - 1) 0)) 4))) ;;;
  zputw address (tabulate (path_info (firstn (Z.to_nat len) newPath) len (upd (upd (upd (upd (upd infoOld 0 INFO_FLAG) 1 ST_PRIMARY) 2 len) 3 hash) (nNew - 1) 0)) nNew) ;;;
  (if nOld <? nNew then zwriteEOF else ret tt) ;;;
  modH (add_counts 0 0 1 0) ;;;
  zpermWrite ;;;
  ret true.

Lemma run_ren_tail c fs0 (L0 : list Z -> content -> Prop) (K : list Z -> Prop) own ch blocks b t h hash new nOld infoAddr infoOld ct cap s E :
  wf_cfg c -> 0 <= h < c_maxHash c -> zhash (c_detune c) (c_maxHash c) new = Ok (h, hash) -> zlen new <= 392 -> is_bytes new -> K (key new) ->
  Ctx c fs0 L0 K (s_disk s) own ch (fun _ => 0) None -> Alloc c (s_disk s) own ch (s_hdr s) blocks ->
  fs0 <= h_fileSize (s_dhdr s) -> fs0 <= h_fileSize (s_hdr s) ->
  ch h = b :: t ->
  (forall i k e, entry_at ch (h, i, k) = Some e -> key (e_path e) = key new -> ~ live e) ->
  i_hash (s_ifl s) = hash -> i_len (s_ifl s) = zlen new -> i_hashBin (s_ifl s) <> 0 ->
  i_withSpace (s_ifl s) = roomc (zlen new) (ch h) ->
  i_binCur (s_ifl s) = fst (last_b t b) -> i_bin (s_ifl s) = bin_words (c_binSize c) (snd (last_b t b)) 0 ->
  ((forall i a es, nth_error (ch h) i = Some (a, es) -> a < fs0) /\ Z.of_nat (length (ch h)) <= fs0) \/ ch h = [(fst b, [])] ->
  (forall h' i' a, 0 <= h' < c_maxHash c -> nth_error (ch h') i' = Some (a, []) -> h' = h /\ ch h = [(a, [])]) ->
  safe_slot c (ch h) (zlen new) ->
  30 <= nOld -> 0 < infoAddr -> (forall y, infoAddr <= y < infoAddr + nOld -> own y = TPend) ->
  (forall y, infoOld 13 <= y < infoOld 13 + cap -> own y = TPend) -> 0 < infoOld 13 -> own (infoOld 13 - 1) = TPend ->
  infoOld 13 + cap <= infoAddr \/ infoAddr + nOld <= infoOld 13 ->
  lay_ok infoOld cap -> rec_content (s_disk s) infoOld = ct ->
  run (GI c fs0 L0 K) (ren_tail c new nOld (numInfo (zlen new)) infoAddr (zlen new) hash infoOld) s
    (fun found s' => found = true /\ exists own' ch' blocks' i k e',
       Placed c ch ch' h i k e' /\
       Dsk c (s_disk s') own' ch' (fun _ => 0) None /\ Alloc c (s_disk s') own' ch' (s_hdr s') blocks' /\
       s_dhdr s' = s_hdr s' /\ e_path e' = new /\ e_status e' = 1 /\ e_ct e' = ct) E.
Proof.
  intros WF Hh HP HL HB HKN CX AL FS FS' EC NLV IH IL IHB IW IBC IBN HA EB SS NO IA OI OC F13 OF DJ LAY RC.
  pose proof WF as (W1 & W2 & W3 & W4 & W5).
  pose proof (numInfo_bounds (zlen new) (conj (zlen_nonneg _) HL)) as NB.
  set (n := numInfo (zlen new)) in *.
  assert (G0 : GI c fs0 L0 K (s_disk s, s_dhdr s)) by (eapply Ctx_GI; eauto).
  assert (LAY0 := LAY). destruct LAY0 as (C1 & C2 & C3 & C4 & C5 & C6 & L1 & L2 & L3 & L4 & L5 & L6 & L7).
  pose proof (cnt_words _ C1). pose proof (cnt_words _ C2). pose proof (cnt_words _ C3).
  pose proof (cnt_words _ C4). pose proof (cnt_words _ C5). pose proof (cnt_words _ C6).
  assert (CAP : 0 <= cap) by lia.
  unfold ren_tail.
  set (f := path_info (firstn (Z.to_nat (zlen new)) new) (zlen new) (upd (upd (upd (upd (upd infoOld 0 INFO_FLAG) 1 ST_PRIMARY) 2 (zlen new)) 3 hash) (n - 1) 0)).
  assert (FV : forall j, 4 <= j < 29 -> f j = infoOld j).
  { intros j Hj. unfold f, path_info, upd. rewrite (proj2 (Z.leb_gt 30 j)) by lia. cbn [andb].
    rewrite !(proj2 (Z.eqb_neq j _)) by lia. reflexivity. }
  assert (F3 : f 3 = hash).
  { unfold f, path_info, upd. cbn [Z.leb Z.compare Pos.compare Pos.compare_cont andb]. rewrite (proj2 (Z.eqb_neq 3 (n - 1))) by lia. reflexivity. }
  (* the place of the info block *)
  assert (ADDR : run (GI c fs0 L0 K) (if nOld <? n then zgetFileSpace n else ret infoAddr) s
    (fun address s' => exists own1 blocks1, Ctx c fs0 L0 K (s_disk s) own1 ch (fun _ => 0) None /\ Alloc c (s_disk s) own1 ch (s_hdr s') blocks1 /\
       s_disk s' = s_disk s /\ s_dhdr s' = s_dhdr s /\ s_ifl s' = s_ifl s /\ h_fileSize (s_hdr s) <= h_fileSize (s_hdr s') /\
       0 < address /\ (forall y, address <= y < address + n -> own1 y = TPend) /\
       (forall y, infoOld 13 - 1 <= y < infoOld 13 + cap -> own1 y = TPend) /\
       (infoOld 13 + cap <= address \/ address + n <= infoOld 13)) E).
  { destruct (nOld <? n) eqn:NN; bz.
    - unfold zgetFileSpace. step. step. step. apply run_setH; [exact G0|]. apply run_ret; [exact G0|]. cbn [s_disk s_dhdr s_hdr s_ifl].
      fold (grow n (s_hdr s)). set (ad := h_fileSize (s_hdr s)).
      assert (BEL : infoOld 13 - 1 + cap < ad).
      { destruct (Z.eq_dec cap 0) as [->|CN].
        - assert (infoOld 13 - 1 < ad) by (eapply below_free; [exact AL|rewrite OF; discriminate]). lia.
        - assert (infoOld 13 + cap - 1 < ad) by (eapply below_free; [exact AL|rewrite OC by lia; discriminate]). lia. }
      exists (retag own ad n TPend), blocks.
      split; [eapply Ctx_grow; [exact CX|exact AL|intros; discriminate]|]. split; [apply Alloc_grow; [exact AL|lia]|].
      split; [reflexivity|]. split; [reflexivity|]. split; [reflexivity|]. split; [cbn [grow h_fileSize]; lia|].
      pose proof (al_fs _ _ _ _ _ _ AL) as AF. split; [unfold ad; lia|]. split; [intros y Hy; apply retag_in; exact Hy|].
      split. { intros y Hy. rewrite retag_out by lia. destruct (Z.eq_dec y (infoOld 13 - 1)) as [->|YN]; [exact OF|apply OC; lia]. }
      left. lia.
    - apply run_ret; [exact G0|]. exists own, blocks. split; [exact CX|]. split; [exact AL|]. do 3 (split; [reflexivity|]). split; [lia|].
      split; [exact IA|]. split; [intros y Hy; apply OI; lia|].
      split. { intros y Hy. destruct (Z.eq_dec y (infoOld 13 - 1)) as [->|YN]; [exact OF|apply OC; lia]. }
      lia. }
  step. eapply run_conseq; [exact ADDR| |intros s' _ Q; exact Q]. clear ADDR.
  cbv beta. intros address s1 G1 (own1 & blocks1 & CX1 & AL1 & D1 & DH1 & IF1 & FS1 & AP & OA & OR & DJ1).
  step. step. cbn [s_disk s_dhdr s_log s_hdr s_ifl].
  set (s2 := mkst (s_disk s1) (s_dhdr s1) (s_log s1) (s_hdr s1) (set_info f (s_ifl s1))).
  assert (HD2 : fs0 <= h_fileSize (s_dhdr s2)) by (change (s_dhdr s2) with (s_dhdr s1); rewrite DH1; exact FS).
  step. eapply run_conseq; [eapply (run_zbinUpdate c fs0 L0 K h hash new address 1 (fst (i8toi4 false (f 4))) ct WF Hh HP HL HB)
      with (own := own1) (ch := ch) (blocks := blocks1) (b := b) (t := t)| |intros s' _ Q; exact Q]; try assumption.
  { lia. } { change (s_disk s2) with (s_disk s1). rewrite D1. exact CX1. } { change (s_disk s2) with (s_disk s1). rewrite D1. exact AL1. }
  { cbn. rewrite IF1. exact IH. } { cbn. rewrite IF1. exact IL. } { cbn. rewrite IF1. exact IHB. } { cbn. rewrite IF1. exact IW. }
  { cbn. rewrite IF1. exact IBC. } { cbn [s2 s_ifl set_info i_bin]. rewrite IF1. exact IBN. }
  cbv beta. intros _ s5 G5 (i & k & own5 & ch5 & blocks5 & e & CX5 & AL5 & E5 & (EP & EST & EI & ECT & _) & EO5 & ER5 & EL5 & EB5 & EI5 & GR5 & DI5 & DH5 & FS5 & _ & _).
  cbn [s2 s_disk s_dhdr s_log s_hdr s_ifl h_fileSize] in FS5, DH5, DI5.
  (* all words of the record now belong to the new entry *)
  set (R := fun y => (address <= y < address + n) \/ (infoOld 13 - 1 <= y < infoOld 13 + cap)).
  assert (RDEC : forall y, {R y} + {~ R y}).
  { intros y. unfold R. destruct (Z_le_dec address y), (Z_lt_dec y (address + n)), (Z_le_dec (infoOld 13 - 1) y), (Z_lt_dec y (infoOld 13 + cap)); (left; lia) || (right; lia). }
  assert (PEND : forall y, R y -> own5 y = TPend).
  { intros y Hy. destruct GR5 as [GR5 _]. assert (own1 y = TPend) by (destruct Hy; [apply OA|apply OR]; assumption). rewrite GR5; congruence. }
  set (own6 := fun y => if RDEC y then TRec h i k else own5 y).
  assert (IN6 : forall y, R y -> own6 y = TRec h i k) by (intros y Hy; unfold own6; destruct (RDEC y); [reflexivity|contradiction]).
  assert (OUT6 : forall y, own5 y <> TPend -> own6 y = own5 y) by (intros y Hy; unfold own6; destruct (RDEC y); [exfalso; apply Hy, PEND; assumption|reflexivity]).
  assert (CX6 : Ctx c fs0 L0 K (s_disk s5) own6 ch5 (fun _ => 0) (Some (h, i, k))).
  { eapply Ctx_ext; [exact CX5|auto| |].
    - intros y Hy. apply critical_not in Hy. apply OUT6. tauto.
    - intros y h1 i1' k1 Hy. unfold own6 in Hy. destruct (RDEC y); [right; congruence|left; exact Hy]. }
  assert (AL6 : Alloc c (s_disk s5) own6 ch5 (s_hdr s5) blocks5).
  { eapply Alloc_ext; try exact AL5; try reflexivity; try lia.
    - intros y Hy. split; [reflexivity|]. apply OUT6. destruct Hy as [-> | ->]; discriminate.
    - intros y Hy. rewrite OUT6; [apply (al_free _ _ _ _ _ _ AL5), Hy|]. rewrite (al_free _ _ _ _ _ _ AL5) by exact Hy. discriminate. }
  assert (ABEL : address + n - 1 < h_fileSize (s_hdr s5)) by (eapply below_free; [exact AL5|rewrite PEND by (left; lia); discriminate]).
  set (d7 := put (s_disk s5) address (tabulate f n)).
  assert (ZT : zlen (tabulate f n) = n) by (apply zlen_tabulate; lia).
  assert (O7 : forall y, own6 y <> TRec h i k -> d7 y = s_disk s5 y).
  { intros y Hy. unfold d7. apply put_out. rewrite ZT. destruct (Z.lt_ge_cases y address); [left; lia|]. destruct (Z.lt_ge_cases y (address + n)); [|right; lia].
    exfalso. apply Hy, IN6. left. lia. }
  assert (CX7 : Ctx c fs0 L0 K d7 own6 ch5 (fun _ => 0) (Some (h, i, k))).
  { eapply Ctx_disk; [exact CX6|]. intros y Hy. apply O7. intros Q. revert Hy. apply critical_own. exact Q. }
  assert (HD5 : fs0 <= h_fileSize (s_dhdr s5)) by (rewrite DH5; exact HD2).
  assert (G7 : GI c fs0 L0 K (d7, s_dhdr s5)) by (eapply Ctx_GI; [exact CX7|exact HD5]).
  step. apply run_zputw; cbn [s_disk s_dhdr s_log s_hdr s_ifl]; [exact G5|lia|lia| |exact G7|].
  { intros Q. rewrite Q in ZT. change (zlen (@nil Z)) with 0 in ZT. lia. }
  fold d7.
  assert (AL7 : Alloc c d7 own6 ch5 (s_hdr s5) blocks5).
  { eapply Alloc_disk; [exact AL6|]. intros y Hy. apply O7. destruct Hy as [-> | ->]; discriminate. }
  assert (LAST : forall s', (forall y, own6 y <> TFree -> s_disk s' y = d7 y) -> s_hdr s' = s_hdr s5 -> s_dhdr s' = s_dhdr s5 ->
     run (GI c fs0 L0 K) (modH (add_counts 0 0 1 0) ;;; zpermWrite ;;; ret true) s'
      (fun found s' => found = true /\ exists own' ch' blocks' i k e',
       Placed c ch ch' h i k e' /\
       Dsk c (s_disk s') own' ch' (fun _ => 0) None /\ Alloc c (s_disk s') own' ch' (s_hdr s') blocks' /\
       s_dhdr s' = s_hdr s' /\ e_path e' = new /\ e_status e' = 1 /\ e_ct e' = ct) E).
  { intros s' D' H' DH'.
    assert (CX' : Ctx c fs0 L0 K (s_disk s') own6 ch5 (fun _ => 0) (Some (h, i, k))).
    { eapply Ctx_disk; [exact CX7|]. intros y Hy. apply D'. apply critical_not in Hy. tauto. }
    assert (G' : GI c fs0 L0 K (s_disk s', s_dhdr s')) by (eapply Ctx_GI; [exact CX'|rewrite DH'; exact HD5]).
    step. step. step. cbn [s_disk s_dhdr s_log s_hdr s_ifl]. apply run_zpermWrite; cbn [s_disk s_dhdr s_log s_hdr s_ifl]; [exact G'| |].
    { eapply Ctx_GI; [exact CX'|]. cbn [add_counts h_fileSize]. rewrite H'. lia. }
    apply run_ret; [eapply Ctx_GI; [exact CX'|]; cbn [s_dhdr add_counts h_fileSize]; rewrite H'; lia|].
    split; [reflexivity|]. exists own6, ch5, blocks5, i, k, e. cbn [s_disk s_dhdr s_log s_hdr s_ifl].
    split.
    { split; [exact E5|]. split. { intros [[h' i'] k'] HN. apply EO5. exact HN. }
      split; [exact ER5|]. split. { intros i' k' e' E0 S0 K0. apply (EL5 i' k' e'); [exact E0|exact S0|rewrite K0, EP; reflexivity]. }
      intros h' i' a Hh' Q. destruct (EB5 h' i' a Q) as [T1 T2]. destruct (EB h' i' a Hh' T1) as [-> T3].
      rewrite T3 in T1. destruct EI5 as [EI5|EI5]; [|exact (EI5 a T3)]. rewrite T3 in EI5. cbn [length] in EI5.
      destruct i' as [|[|i']]; try discriminate. apply T2. f_equal. lia. }
    assert (EOK : eok c h e) by (eapply Dsk_eok; [apply (cx_dsk _ _ _ _ _ _ _ _ _ CX7)|exact Hh|exact E5]).
    assert (EHS : e_hash e = hash) by (destruct EOK as (_ & Q & _); rewrite EP, HP in Q; congruence).
    assert (ELN : e_len e = zlen new).
    { destruct EOK as (Q & _). pose proof (e_path_length e Q) as LL. rewrite EP in LL. destruct Q as (_ & Q & _). unfold zlen. lia. }
    split; [|split; [|split; [reflexivity|auto]]].
    - eapply Dsk_unexempt; [apply (cx_dsk _ _ _ _ _ _ _ _ _ CX')|exact E5|]. intros _.
      assert (FI : forall j, 0 <= j < n -> s_disk s' (address + j) = f j).
      { intros j Hj. rewrite D' by (rewrite IN6 by (left; lia); discriminate). unfold d7. rewrite put_tabulate by lia. f_equal. lia. }
      assert (FJ : forall j, 4 <= j < 29 -> s_disk s' (address + j) = infoOld j) by (intros j Hj; rewrite FI by lia; apply FV; exact Hj).
      assert (SD : forall y, infoOld 13 <= y < infoOld 13 + cap -> s_disk s' y = s_disk s y).
      { intros y Hy. rewrite D' by (rewrite IN6 by (right; lia); discriminate). unfold d7. rewrite put_out by (rewrite ZT; lia).
        rewrite DI5 by (left; apply OR; lia). rewrite D1. reflexivity. }
      unfold rec_ok. cbv zeta. rewrite EI, ELN. fold n. rewrite !FJ by lia. split; [exact AP|]. split; [intros y Hy; apply IN6; left; exact Hy|].
      split.
      { eapply named_ext; [rewrite ELN; exact FI|rewrite ELN; pose proof (zlen_nonneg new); lia|].
        apply named_new; auto; unfold upd; rewrite ?(proj2 (Z.eqb_neq _ (n - 1))) by lia; cbn [Z.eqb Pos.eqb]; try reflexivity. symmetry; exact EHS. }
      exists cap. split; [intros y Hy; apply IN6; right; lia|]. split; [split; [exact F13|apply IN6; right; lia]|]. split; [exact DJ1|].
      split. { unfold lay_ok. rewrite !FJ by lia. exact LAY. }
      rewrite ECT, <- RC. unfold rec_content. rewrite !FJ by lia.
      f_equal; apply ints_at_ext; intros y Hy; apply SD; lia.
    - rewrite H'. eapply Alloc_hdr; [|unfold same_space; cbn; auto]. eapply Alloc_disk; [exact AL7|]. intros y Hy. apply D'. destruct Hy as [-> | ->]; discriminate. }
  step. destruct (nOld <? n).
  - unfold zwriteEOF. step. apply run_getH; [exact G7|]. cbv beta. cbn [s_disk s_dhdr s_log s_hdr s_ifl].
    pose proof (al_fs _ _ _ _ _ _ AL5) as AF.
    assert (OO : forall y, own6 y <> TFree -> put d7 (h_fileSize (s_hdr s5)) [EOF_FLAG] y = d7 y).
    { intros y Hy. apply put_out. left. eapply below_free; eauto. }
    apply run_zputw; cbn [s_disk s_dhdr s_log s_hdr s_ifl]; [exact G7|lia|change (zlen [EOF_FLAG]) with 1; lia|discriminate| |].
    + eapply Ctx_GI; [|exact HD5]. eapply Ctx_disk; [exact CX7|]. intros y Hy. apply OO. apply critical_not in Hy. tauto.
    + cbv beta. apply LAST; auto.
  - apply run_ret; [exact G7|]. cbv beta. apply LAST; auto.
Qed.

(** A directory entry marked as renamed. *)
Lemma Rep_dropped c s s' own own' ch ch' blocks blocks' h i k e' : Rep c s own ch blocks ->
  Dsk c (s_disk s') own' ch' (fun _ => 0) None -> Alloc c (s_disk s') own' ch' (s_hdr s') blocks' -> s_dhdr s' = s_hdr s' ->
  Rewritten ch ch' h i k e' -> e_status e' = 12 ->
  Rep c s' own' ch' blocks'.
Proof.
  intros [R1 R2 R3 R4 R5 R6] DK AL EH (W1 & W2 & W3) ES.
  assert (X : forall p x, entry_at ch' p = Some x -> e_status x <> 12 -> entry_at ch p = Some x).
  { intros p x Hx HS. rewrite W2 in Hx; [exact Hx|]. intros ->. rewrite W1 in Hx. congruence. }
  split; auto.
  - intros h1 i1 k1 e1 i2 k2 e2 Hh E1 E2 V1 V2 KQ. apply X in E1; [|unfold live in V1; lia]. apply X in E2; [|unfold live in V2; lia]. eapply R4; eauto.
  - intros h1 i1 k1 e1 i2 k2 e2 Hh E1 E2 V1 V2 KQ. apply X in E1; [|unfold live in V1; lia]. apply X in E2; [|lia]. eapply R5; eauto.
  - intros h1 i1 a Hh Q. apply W3 in Q. exact (R6 h1 i1 a Hh Q).
Qed.
Lemma Live_dropped c s own ch blocks ch' h i k e e' p ct : wf_cfg c -> Rep c s own ch blocks -> 0 <= h < c_maxHash c ->
  Rewritten ch ch' h i k e' -> entry_at ch (h, i, k) = Some e -> e_status e' = 12 -> live e ->
  Live c ch' p ct <-> (key p <> key (e_path e) /\ Live c ch p ct).
Proof.
  intros WF RP Hh (W1 & W2 & W3) HE ES HV. split.
  - intros (h1 & i1 & k1 & e1 & H1 & E1 & V1 & K1 & C1).
    assert (N : (h1, i1, k1) <> (h, i, k)) by (intros Q; rewrite Q, W1 in E1; inversion E1; subst e1; unfold live in V1; lia).
    rewrite W2 in E1 by exact N. split; [|exists h1, i1, k1, e1; auto].
    intros Q. assert (KK : key (e_path e1) = key (e_path e)) by congruence.
    pose proof (Dsk_eok _ _ _ _ _ _ _ _ _ _ (rp_dsk _ _ _ _ _ RP) Hh HE) as (_ & HZ & _).
    pose proof (entry_chain c s own ch blocks RP (e_path e) h (e_hash e) h1 i1 k1 e1 HZ H1 E1 KK). subst h1.
    destruct (rp_uniq _ _ _ _ _ RP h i1 k1 e1 i k e Hh E1 HE V1 HV KK) as [-> ->]. apply N. reflexivity.
  - intros (NK & h1 & i1 & k1 & e1 & H1 & E1 & V1 & K1 & C1).
    exists h1, i1, k1, e1. split; [exact H1|]. split; [|auto]. rewrite W2; [exact E1|]. intros Q. rewrite Q, HE in E1. apply NK. congruence.
Qed.
Lemma Dead_dropped c ch ch' h i k e' p ct : Rewritten ch ch' h i k e' -> e_status e' = 12 -> Dead c ch' p ct -> Dead c ch p ct.
Proof.
  intros (W1 & W2 & W3) ES (h1 & i1 & k1 & e1 & H1 & E1 & V1 & K1 & C1). exists h1, i1, k1, e1. split; [exact H1|]. split; [|auto].
  rewrite W2 in E1; [exact E1|]. intros Q. rewrite Q, W1 in E1. assert (e' = e1) by congruence. subst. congruence.
Qed.
Lemma dead_max_dropped c ch ch' h i k e' W : Rewritten ch ch' h i k e' -> e_status e' = 12 -> dead_max c ch W -> dead_max c ch' W.
Proof.
  intros (W1 & W2 & W3) ES HM h1 i1 k1 e1 H1 E1 S1. apply (HM h1 i1 k1 e1 H1); [|exact S1].
  rewrite W2 in E1; [exact E1|]. intros Q. rewrite Q, W1 in E1. assert (e' = e1) by congruence. subst. congruence.
Qed.

Lemma dead_le_dropped c ch ch' h i k e' n : Rewritten ch ch' h i k e' -> e_status e' = 12 -> dead_le c ch n -> dead_le c ch' n.
Proof.
  intros (W1 & W2 & W3) ES. apply dead_le_sub. intros h1 i1 k1 e1 H1 E1 S1.
  rewrite W2 in E1; [eauto|]. intros Q. rewrite Q, W1 in E1. assert (e' = e1) by congruence. subst. congruence.
Qed.

(** zrename after the target has been removed. *)
Definition rename_rest (c : cfg) (oldPath newPath : list Z) (nNew : Z) : M bool :=
  foundOld <- zcheckInternal c oldPath ST_PRIMARY ;;
  if negb foundOld then ret false else
  i <- getI ;;
  zputw (i_pathBinAdd i + 1) [ST_RENAMED] ;;;
  let nOld := 30 + snd (i8toi4 false (i_pathLen i)) in
  let infoAddress := i_addInfo i in
  ws <- zgetw infoAddress nOld ;;
  let infoOld := fun k => if k <? nOld then nth (Z.to_nat k) ws 0 else i_info i k in
  (if nOld <? nNew then
     zputw infoAddress (tabulate (upd infoOld 1 ST_RENAMED) nOld) ;;;
     modH (add_counts 0 0 0 nOld)
   else ret tt) ;;;
  modI (set_dataDates (infoOld 9) (infoOld 10)) ;;;
  _ <- zcheckInternal c newPath ST_PRIMARY ;;
  i <- getI ;;
  (if i_hashBin i =? 0 then
     zbinNew c ;;;
     i' <- getI ;;
     modI (set_hashBin (i_binCur i')) ;;;
     zputw (i_addTable i) [i_binCur i']
   else ret tt) ;;;
  address <- (if nOld <? nNew then zgetFileSpace nNew else ret infoAddress) ;;
  let f := upd (upd (upd (upd infoOld 0 INFO_FLAG) 1 ST_PRIMARY) 2 (i_len i)) 3 (i_hash i) in
  let f := path_info (firstn (Z.to_nat (i_len i)) newPath) (i_len i) (upd f (nNew - 1) 0) in
  modI (set_info f) ;;;
  zbinUpdate c newPath address 1 (fst (i8toi4 false (f 4))) ;;;
  zputw address (tabulate f nNew) ;;;
  (if nOld <? nNew then zwriteEOF else ret tt) ;;;
  modH (add_counts 0 0 1 0) ;;;
  zpermWrite ;;;
  ret true.

Section REN.
Variables (c : cfg) (s : st) (own : Z -> tag) (ch : chains) (blocks : list Z) (old new : list Z) (h1 hash1 h2 hash2 : Z).
Variables (i1 k1 : nat) (a1 : Z) (es1 : list entry) (e : entry).
Hypothesis WF : wf_cfg c.
Hypothesis RP : Rep c s own ch blocks.
Hypothesis HLo : zlen old <= 392.
Hypothesis HLn : zlen new <= 392.
Hypothesis HBn : is_bytes new.
Hypothesis HP1 : zhash (c_detune c) (c_maxHash c) old = Ok (h1, hash1).
Hypothesis Hh1 : 0 <= h1 < c_maxHash c.
Hypothesis HP2 : zhash (c_detune c) (c_maxHash c) new = Ok (h2, hash2).
Hypothesis Hh2 : 0 <= h2 < c_maxHash c.
Hypothesis Hi1 : nth_error (ch h1) i1 = Some (a1, es1).
Hypothesis Hk1 : nth_error es1 k1 = Some e.
Hypothesis HV : live e.
Hypothesis HK : key (e_path e) = key old.
Hypothesis NLV : forall i k e', entry_at ch (h2, i, k) = Some e' -> key (e_path e') = key new -> ~ live e'.
Variable W : Z.
Hypothesis DM : dead_max c ch W.
Hypothesis HW : W <= words_of new.
Let fs0 := h_fileSize (s_hdr s).
Let L0 := Live c ch.
Let K := fun q => q = key old \/ q = key new.
Let G := GI c fs0 L0 K.

(** The old entry renamed, then the new one placed. *)
Lemma run_rename E :
  run G (rename_rest c old new (numInfo (zlen new))) s
    (fun found s' => found = true /\ exists sI ownI ch1 own' ch' blocks' i k e',
       Rep c sI ownI ch1 blocks /\ Rewritten ch ch1 h1 i1 k1 (with_status 12 e) /\ Placed c ch1 ch' h2 i k e' /\
       Dsk c (s_disk s') own' ch' (fun _ => 0) None /\ Alloc c (s_disk s') own' ch' (s_hdr s') blocks' /\
       s_dhdr s' = s_hdr s' /\ e_path e' = new /\ e_status e' = 1 /\ e_ct e' = e_ct e /\
       (forall i k e', entry_at ch1 (h2, i, k) = Some e' -> key (e_path e') = key new -> ~ live e')) E.
Proof.
  pose proof WF as (W1 & W2 & W3 & W4 & W5).
  assert (HE : entry_at ch (h1, i1, k1) = Some e) by (unfold entry_at; rewrite Hi1; exact Hk1).
  assert (ST : storing e) by (unfold storing, live in *; tauto).
  pose proof (Dsk_eok _ _ _ _ _ _ _ _ _ _ (rp_dsk _ _ _ _ _ RP) Hh1 HE) as EOK. pose proof EOK as (SH & EH & _).
  assert (LEN : e_len e = zlen old).
  { pose proof (e_path_length e SH). pose proof (key_app_inj _ _ HK). destruct SH as (_ & B & _). unfold zlen. lia. }
  pose proof (dk_rec _ _ _ _ _ _ (rp_dsk _ _ _ _ _ RP) h1 i1 k1 e Hh1 HE ST ltac:(discriminate)) as RO.
  pose proof RO as (R1 & R2 & R3 & cap & R4 & R5 & R6 & R7 & R8).
  pose proof (numInfo_bounds (e_len e) (proj1 (proj2 SH))) as NB.
  pose proof (numInfo_bounds (zlen new) (conj (zlen_nonneg _) HLn)) as NBn.
  set (nOld := numInfo (e_len e)) in *. set (nNew := numInfo (zlen new)) in *.
  assert (HKK : K (key (e_path e))) by (left; exact HK).
  pose proof (rep_ctx c s own ch blocks WF RP K) as CX. fold fs0 L0 in CX.
  pose proof (rp_al _ _ _ _ _ RP) as AL. pose proof (rp_hdr _ _ _ _ _ RP) as EDH.
  assert (FS0 : fs0 <= h_fileSize (s_dhdr s)) by (rewrite EDH; apply Z.le_refl).
  assert (G0 : G (s_disk s, s_dhdr s)) by (apply (rep_good c s own ch blocks WF RP K)).
  assert (FP : 100 <= fs0) by apply (al_fs _ _ _ _ _ _ AL).
  pose proof (zlen_enc e) as ZE. pose proof (zlen_nonneg (e_words e)) as ZW.
  destruct (rep_check c s own ch blocks old h1 hash1 i1 k1 a1 es1 e WF RP HLo HP1 Hh1 Hi1 Hk1 HK HV) as (s1 & E1 & (F1 & F2 & F3 & F4) & (I1 & I2 & I3 & _) & (J1 & J2 & J3 & J4 & J5 & _)).
  unfold rename_rest. change ST_PRIMARY with 1. step. eapply run_known; [exact G0|exact E1|repeat split; assumption|]. cbn [negb].
  assert (G1 : G (s_disk s1, s_dhdr s1)) by (rewrite F1, F2; exact G0).
  step. step. rewrite J1, J2, J5, I2, <- LEN, (shape_unpack e SH). cbn [snd].
  replace (30 + zlen (e_words e)) with nOld by (unfold nOld, numInfo; f_equal; symmetry; apply SH).
  set (e1 := with_status 12 e). set (ch1 := setb ch h1 i1 (a1, lset es1 k1 e1)).
  assert (RW : Rewritten ch ch1 h1 i1 k1 e1) by (eapply Rewritten_setb; eauto).
  step. eapply (run_set_entry c fs0 L0 K own ch None blocks h1 i1 k1 a1 es1 e e1 1); try assumption.
  { rewrite F1. exact CX. } { rewrite F1, F4. exact AL. } { rewrite F2. exact FS0. }
  { split; [reflexivity|split; reflexivity]. } { right. reflexivity. }
  { right. intros [Q|[Q|Q]]; discriminate Q. } { lia. } { lia. } { discriminate. }
  { rewrite ZE. change (zlen [ST_RENAMED]) with 1. lia. }
  { reflexivity. }
  intros d2 OUT2 CX2 AL2 G2. fold ch1 in CX2, AL2. rewrite F1 in OUT2. rewrite F2, F4 in *.
  assert (RD2 : forall y, own y = TRec h1 i1 k1 -> d2 y = s_disk s y) by (intros y Hy; apply OUT2; rewrite Hy; discriminate).
  set (own2 := rel own h1 i1 k1).
  assert (CX2' : Ctx c fs0 L0 K d2 own2 ch1 (fun _ => 0) None).
  { apply Ctx_release; [exact CX2|]. destruct RW as (RW1 & _). rewrite RW1. intros e0 Q. inversion Q; subst e0. intros [T|[T|T]]; discriminate T. }
  assert (AL2' : Alloc c d2 own2 ch1 (s_hdr s) blocks) by (apply Alloc_release; exact AL2).
  assert (PND2 : forall y, own y = TRec h1 i1 k1 -> own2 y = TPend) by (intros y; apply rel_in).
  assert (EIF : e_info e < fs0) by (apply (rep_rec c s own ch blocks RP (e_info e) h1 i1 k1), R2; lia).
  step. apply run_zgetw; cbn [s_disk s_dhdr s_log s_hdr s_ifl]; [exact G2|unfold fs0 in *; lia|lia|]. cbn beta iota zeta.
  set (infoOld := fun k => if k <? nOld then nth (Z.to_nat k) (words d2 (e_info e) nOld) 0 else i_info (s_ifl s1) k).
  assert (IO : forall j, 0 <= j < nOld -> infoOld j = s_disk s (e_info e + j)).
  { intros j Hj. unfold infoOld. rewrite (proj2 (Z.ltb_lt j nOld)) by lia. rewrite words_nth by lia. apply RD2, R2. lia. }
  (* the old info block is marked when it is not reused *)
  set (s2 := mkst d2 (s_dhdr s) (s_log s1 ++ [WWords (a1 + zlen (encs (firstn k1 es1)) + 1) [ST_RENAMED]]) (s_hdr s) (s_ifl s1)).
  assert (MID : run G (if nOld <? nNew then zputw (e_info e) (tabulate (upd infoOld 1 ST_RENAMED) nOld) ;;; modH (add_counts 0 0 0 nOld) else ret tt) s2
    (fun _ s' => Ctx c fs0 L0 K (s_disk s') own2 ch1 (fun _ => 0) None /\ Alloc c (s_disk s') own2 ch1 (s_hdr s') blocks /\
       same_space (s_hdr s) (s_hdr s') /\ s_dhdr s' = s_dhdr s /\
       (forall y, own y = TRec h1 i1 k1 -> y < e_info e \/ e_info e + nOld <= y -> s_disk s' y = s_disk s y)) E).
  { destruct (nOld <? nNew) eqn:NN; bz.
    - step. eapply (run_pend c fs0 L0 K own2 ch1 None blocks); cbn [s2 s_disk s_dhdr s_log s_hdr s_ifl]; try assumption; try lia.
      { rewrite zlen_tabulate by lia. intros y Hy. apply PND2, R2. lia. } { rewrite zlen_tabulate by lia. lia. }
      intros d3 D3 OUT3 CX3 AL3 G3. apply run_modH; [exact G3|]. cbn [s_disk s_dhdr s_log s_hdr s_ifl].
      split; [exact CX3|]. split; [eapply Alloc_hdr; [exact AL3|unfold same_space; cbn; auto]|]. split; [unfold same_space; cbn; auto|]. split; [reflexivity|].
      intros y Hy HO. rewrite D3, put_out by (rewrite zlen_tabulate by lia; lia). apply RD2, Hy.
    - apply run_ret; [exact G2|]. cbn [s2 s_disk s_dhdr s_log s_hdr s_ifl]. split; [exact CX2'|]. split; [exact AL2'|]. split; [unfold same_space; auto|]. split; [reflexivity|]. auto. }
  step. eapply run_conseq; [exact MID| |intros s' _ Q; exact Q]. clear MID.
  cbv beta. intros _ s3 G3 (CX3 & AL3 & (SP1 & SP2 & SP3) & DH3 & D3).
  step. step. cbn [s_disk s_dhdr s_log s_hdr s_ifl].
  set (s4 := mkst (s_disk s3) (s_dhdr s3) (s_log s3) (s_hdr s3) (set_dataDates (infoOld 9) (infoOld 10) (s_ifl s3))).
  assert (CHL : forall hh, length (ch1 hh) = length (ch hh)).
  { intros hh. unfold ch1, setb. destruct (hh =? h1) eqn:Q; [bz; subst hh; apply lset_length|reflexivity]. }
  assert (CHA : forall hh i a es, nth_error (ch1 hh) i = Some (a, es) -> exists es', nth_error (ch hh) i = Some (a, es')).
  { intros hh i a es Q. unfold ch1 in Q. rewrite setb_at in Q by (eapply nth_error_lt; eauto). destruct ((hh =? h1) && (i1 =? i)%nat) eqn:QQ; [|eauto].
    apply andb_prop in QQ. destruct QQ as [T1 T2]. bz. apply Nat.eqb_eq in T2. subst hh i. inversion Q; subst. eauto. }
  assert (CHB : forall hh i a es, 0 <= hh < c_maxHash c -> nth_error (ch1 hh) i = Some (a, es) -> 100 <= a < fs0).
  { intros hh i a es Hhh Q. destruct (CHA hh i a es Q) as [es' Q']. destruct (rep_bin c s own ch blocks WF RP hh i a es' Hhh Q'). unfold fs0. lia. }
  assert (NLV1 : forall i k e', entry_at ch1 (h2, i, k) = Some e' -> key (e_path e') = key new -> ~ live e').
  { intros i k e' Q KQ VQ. destruct (pos_eq_dec (h2, i, k) (h1, i1, k1)) as [PQ|PQ].
    - destruct RW as (RW1 & _). rewrite PQ, RW1 in Q. inversion Q; subst e'. destruct VQ as [T|T]; discriminate T.
    - destruct RW as (_ & RW2 & _). rewrite RW2 in Q by exact PQ. exact (NLV _ _ _ Q KQ VQ). }
  destruct (zcheck_none c (s_disk s3) own2 ch1 (fun _ => 0) None h2 hash2 new 1 s4) as (s5 & E5 & (F51 & F52 & F53 & F54) & (I51 & I52 & I53 & _) & B51 & B52 & B53); auto.
  { apply (cx_dsk _ _ _ _ _ _ _ _ _ CX3). }
  { unfold s4. cbn [s_hdr]. rewrite SP1. pose proof (rep_hash c s own ch blocks RP). lia. }
  { intros i a es Q. unfold s4. cbn [s_hdr]. rewrite SP1. pose proof (CHB h2 i a es Hh2 Q). unfold fs0 in *. lia. }
  { unfold s4. cbn [s_hdr]. rewrite SP1, CHL. apply (rep_len c s own ch blocks WF RP h2 Hh2). }
  cbn [s4 s_disk s_dhdr s_log s_hdr s_ifl] in F51, F52, F53, F54.
  step. eapply run_known; [exact G3|exact E5|repeat split; assumption|]. cbv beta.
  assert (G5 : G (s_disk s5, s_dhdr s5)) by (rewrite F51, F52; exact G3).
  assert (SSL : safe_slot c (ch1 h2) (zlen new)) by (eapply dead_max_safe; [exact WF|apply (cx_dsk _ _ _ _ _ _ _ _ _ CX3)|exact Hh2|eapply dead_max_dropped; [exact RW|reflexivity|exact DM]|exact HW]).
  assert (FS5 : fs0 <= h_fileSize (s_dhdr s5)) by (rewrite F52, DH3; exact FS0).
  assert (FB : run G (first_bin c) s5
    (fun _ s' => exists own' ch' blocks' b t,
       Ctx c fs0 L0 K (s_disk s') own' ch' (fun _ => 0) None /\ Alloc c (s_disk s') own' ch' (s_hdr s') blocks' /\
       s_dhdr s' = s_dhdr s5 /\ h_fileSize (s_hdr s5) <= h_fileSize (s_hdr s') /\
       ch' h2 = b :: t /\ (forall p, entry_at ch' p = entry_at ch1 p) /\
       (i_hash (s_ifl s') = hash2 /\ i_len (s_ifl s') = zlen new /\ i_hashBin (s_ifl s') <> 0 /\ i_withSpace (s_ifl s') = roomc (zlen new) (ch' h2) /\
        i_binCur (s_ifl s') = fst (last_b t b) /\ i_bin (s_ifl s') = bin_words (c_binSize c) (snd (last_b t b)) 0 /\
        i_info (s_ifl s') = i_info (s_ifl s5)) /\
       (((forall i a es, nth_error (ch' h2) i = Some (a, es) -> a < fs0) /\ Z.of_nat (length (ch' h2)) <= fs0) \/ ch' h2 = [(fst b, [])]) /\
       (forall h' i' a, 0 <= h' < c_maxHash c -> nth_error (ch' h') i' = Some (a, []) -> h' = h2 /\ ch' h2 = [(a, [])]) /\
       safe_slot c (ch' h2) (zlen new) /\ own_grows own2 own' /\
       (forall x, own2 x = TPend -> s_disk s' x = s_disk s5 x)) E).
  { eapply (run_first_bin c fs0 L0 K own2 ch1 blocks h2 hash2 (zlen new) s5 E WF Hh2); auto; try lia.
    - rewrite F51. exact CX3.
    - rewrite F51, F54. exact AL3.
    - intros i a es Q. apply (CHB h2 i a es Hh2 Q).
    - rewrite CHL. apply (rep_len c s own ch blocks WF RP h2 Hh2).
    - intros h' i' a Hh' Q. destruct RW as (_ & _ & RW3). apply RW3 in Q. exact (rp_bins _ _ _ _ _ RP h' i' a Hh' Q). }
  (* the lookup result is read once for both uses *)
  assert (FB2 : run G (if i_hashBin (s_ifl s5) =? 0 then zbinNew c ;;; i' <- getI ;; modI (set_hashBin (i_binCur i')) ;;; zputw (i_addTable (s_ifl s5)) [i_binCur i'] else ret tt) s5 _ E) by exact FB.
  clear FB.
  step. step. rewrite I51, I52.
  step. eapply run_conseq; [exact FB2| |intros s' _ Q; exact Q]. clear FB2.
  cbv beta. intros _ s6 G6 (own6 & ch6 & blocks6 & b & t & CX6 & AL6 & DH6 & FS6 & EC6 & EN6 & (J61 & J62 & J63 & J64 & J65 & J66 & _) & HA6 & EB6 & SS6 & GR6 & TP6).
  cbv zeta.
  assert (R30 : forall j, 0 <= j < 30 -> infoOld j = s_disk s (e_info e + j)) by (intros j Hj; apply IO; lia).
  assert (PND6 : forall y, own y = TRec h1 i1 k1 -> own6 y = TPend).
  { intros y Hy. destruct GR6 as [GR6 _]. rewrite GR6; rewrite (PND2 y Hy); congruence. }
  eapply run_conseq; [eapply (run_ren_tail c fs0 L0 K own6 ch6 blocks6 b t h2 hash2 new nOld (e_info e) infoOld (e_ct e) cap s6 E WF Hh2 HP2 HLn HBn); auto| |intros s' _ Q; exact Q].
  { right. reflexivity. }
  { rewrite DH6. exact FS5. }
  { rewrite F54, SP1 in FS6. exact FS6. }
  { intros i k e' Q. rewrite EN6 in Q. eapply NLV1. exact Q. }
  { apply NB. }
  { rewrite R30 by lia. intros y Hy. apply PND6, R4, Hy. }
  { rewrite R30 by lia. apply R5. }
  { rewrite R30 by lia. apply PND6, R5. }
  { rewrite R30 by lia. exact R6. }
  { unfold lay_ok in *. rewrite !R30 by lia. exact R7. }
  { rewrite <- R8. unfold rec_content. rewrite !R30 by lia.
    assert (SD : forall y, s_disk s (e_info e + 13) <= y < s_disk s (e_info e + 13) + cap -> s_disk s6 y = s_disk s y).
    { intros y Hy. assert (OY : own y = TRec h1 i1 k1) by (apply R4; exact Hy). rewrite TP6 by (apply PND2; exact OY). rewrite F51. apply D3; [exact OY|lia]. }
    destruct R7 as (C1 & C2 & C3 & C4 & C5 & C6 & Q1 & Q2 & Q3 & Q4 & Q5 & Q6 & _).
    pose proof (cnt_words _ C1). pose proof (cnt_words _ C2). pose proof (cnt_words _ C3).
    pose proof (cnt_words _ C4). pose proof (cnt_words _ C5). pose proof (cnt_words _ C6).
    f_equal; apply ints_at_ext; intros y Hy; apply SD; lia. }
  cbv beta. intros found s7 G7 (FT & own7 & ch7 & blocks7 & i & k & e' & (P1 & P2 & P3 & P4 & P5) & DK7 & AL7 & DH7 & EP & ES & EC).
  split; [exact FT|]. exists (mkst (s_disk s3) (s_hdr s3) [] (s_hdr s3) (s_ifl s3)), own2, ch1, own7, ch7, blocks7, i, k, e'.
  split. { eapply Rep_dropped; [exact RP|apply (cx_dsk _ _ _ _ _ _ _ _ _ CX3)|exact AL3|reflexivity|exact RW|reflexivity]. }
  split; [exact RW|].
  split. { split; [exact P1|]. split; [intros p Hp; rewrite P2 by exact Hp; apply EN6|]. split; [intros e0 Q; apply P3; rewrite EN6; exact Q|].
           split; [intros i' k' e0 Q; apply P4; rewrite EN6; exact Q|exact P5]. }
  auto 10.
Qed.
End REN.

(** ** Effect on the records *)
(** A file image, opened afresh, from which every record of [L] outside [K] can be read. *)
Definition Readable (c : cfg) (K : list Z -> Prop) (L : list Z -> content -> Prop) (im : image) : Prop :=
  forall p ct s, zlen p <= 392 -> ~ K (key p) -> L p ct -> s_disk s = fst im -> s_hdr s = snd im ->
    exists s', zreadInternal c p s = OK (Some ct) s' /\ same_file s s'.
Lemma GI_readable c fs0 L0 K (K' : list Z -> Prop) (L : list Z -> content -> Prop) im : wf_cfg c -> GI c fs0 L0 K im ->
  (forall q, K q -> K' q) -> (forall p ct, ~ K' (key p) -> L p ct -> L0 p ct) -> Readable c K' L im.
Proof.
  intros WF HG HK HL p ct s Hp HN HLp Hd Hh. eapply GI_read; eauto.
Qed.

Lemma run_zrename c s own ch blocks old new : wf_cfg c -> Rep c s own ch blocks -> zlen old <= 392 -> zlen new <= 392 -> is_bytes new ->
  copy_path new = new -> ztsPathCompatible new = None -> dead_max c ch (words_of new) ->
  run (Readable c (fun q => q = key old \/ q = key new) (Live c ch)) (zrename c old new) s
    (fun found s' => (found = true <-> key old <> key new /\ exists ct, Live c ch old ct) /\
       exists own' ch' blocks', Rep c s' own' ch' blocks' /\
       (forall p ct, Live c ch' p ct <->
          ((key p = key new /\ found = true /\ Live c ch old ct) \/ (key p <> key new /\ key p <> key old /\ Live c ch p ct) \/
           (key p <> key new /\ found = false /\ Live c ch p ct))) /\
       (forall p ct, Dead c ch' p ct -> Dead c ch p ct \/ (key p = key new /\ Live c ch new ct)) /\
       (forall W, dead_max c ch W -> words_of new <= W \/ (forall ct, ~ Live c ch new ct) -> dead_max c ch' W) /\
       (forall n, dead_le c ch n -> ((forall ct, ~ Live c ch new ct) -> dead_le c ch' n) /\ dead_le c ch' (n + 1)))
    (fun _ => False).
Proof.
  intros WF RP HLo HLn HBn CPY HT DM. pose proof WF as (W1 & W2 & W3 & W4 & W5).
  destruct (zhash_ok c new WF) as (h2 & hash2 & HP2 & Hh2 & _). destruct (zhash_ok c old WF) as (h1 & hash1 & HP1 & Hh1 & _).
  set (K := fun q => q = key old \/ q = key new). set (G := Readable c K (Live c ch)).
  assert (G0 : G (s_disk s, s_dhdr s)).
  { eapply GI_readable; [exact WF|apply (rep_good c s own ch blocks WF RP K)|auto|auto]. }
  (* the second half on a file in which the new name is free *)
  assert (REST : forall s1 own1 ch1 blocks1, Rep c s1 own1 ch1 blocks1 -> dead_max c ch1 (words_of new) ->
     (forall W, dead_max c ch W -> words_of new <= W \/ (forall ct, ~ Live c ch new ct) -> dead_max c ch1 W) ->
     (forall n, dead_le c ch n -> ((forall ct, ~ Live c ch new ct) -> dead_le c ch1 n) /\ dead_le c ch1 (n + 1)) ->
     (forall p ct, Live c ch1 p ct <-> key p <> key new /\ Live c ch p ct) ->
     (forall p ct, Dead c ch1 p ct -> Dead c ch p ct \/ (key p = key new /\ Live c ch new ct)) ->
     run G (rename_rest c old new (numInfo (zlen new))) s1
      (fun found s' => (found = true <-> key old <> key new /\ exists ct, Live c ch old ct) /\
       exists own' ch' blocks', Rep c s' own' ch' blocks' /\
       (forall p ct, Live c ch' p ct <->
          ((key p = key new /\ found = true /\ Live c ch old ct) \/ (key p <> key new /\ key p <> key old /\ Live c ch p ct) \/
           (key p <> key new /\ found = false /\ Live c ch p ct))) /\
       (forall p ct, Dead c ch' p ct -> Dead c ch p ct \/ (key p = key new /\ Live c ch new ct)) /\
       (forall W, dead_max c ch W -> words_of new <= W \/ (forall ct, ~ Live c ch new ct) -> dead_max c ch' W) /\
       (forall n, dead_le c ch n -> ((forall ct, ~ Live c ch new ct) -> dead_le c ch' n) /\ dead_le c ch' (n + 1))) (fun _ => False)).
  { intros s1 own1 ch1 blocks1 RP1 DM1 DMX DLX LV1 DD1.
    assert (NLV1 : forall i k e', entry_at ch1 (h2, i, k) = Some e' -> key (e_path e') = key new -> ~ live e').
    { intros i k e' Q KQ VQ. assert (LL : Live c ch1 new (e_ct e')) by (exists h2, i, k, e'; auto). apply LV1 in LL. tauto. }
    assert (G1 : G (s_disk s1, s_dhdr s1)).
    { eapply GI_readable; [exact WF|apply (rep_good c s1 own1 ch1 blocks1 WF RP1 K)|auto|].
      intros p ct HN HL. apply LV1. split; [|exact HL]. unfold K in HN. tauto. }
    destruct (rep_lookup c s1 own1 ch1 blocks1 old h1 hash1 WF RP1 HP1 Hh1) as [[ct LV]|NLV].
    - destruct (rep_live_at c s1 own1 ch1 blocks1 old ct WF RP1 LV) as (h' & hash' & i & k & a & es & e & HP' & _ & Hi & Hk & HV & HK & HC).
      rewrite HP1 in HP'. assert (h' = h1) by congruence. assert (hash' = hash1) by congruence. subst h' hash'.
      assert (HE : entry_at ch1 (h1, i, k) = Some e) by (unfold entry_at; rewrite Hi; exact Hk).
      eapply run_weaken with (G := GI c (h_fileSize (s_hdr s1)) (Live c ch1) K).
      { intros im HG. eapply GI_readable; [exact WF|exact HG|auto|]. intros p ct' HN HL. apply LV1. split; [|exact HL]. unfold K in HN. tauto. }
      eapply run_conseq; [eapply (run_rename c s1 own1 ch1 blocks1 old new h1 hash1 h2 hash2 i k a es e WF RP1 HLo HLn HBn HP1 Hh1 HP2 Hh2 Hi Hk HV HK NLV1 (words_of new) DM1); lia| |intros s' _ Q; exact Q].
      cbv beta. intros found s2 _ (-> & sI & ownI & chI & own2 & ch2 & blocks2 & i2 & k2 & e2 & RPI & RW & PL & DK & AL & DH & EP & ES & EC & NLI).
      assert (V2 : live e2) by (right; exact ES).
      assert (EOK : eok c h2 e2) by (eapply Dsk_eok; [exact DK|exact Hh2|apply PL]).
      assert (HN : forall i' k' e', entry_at chI (h2, i', k') = Some e' -> key (e_path e') = key (e_path e2) -> ~ live e') by (rewrite EP; exact NLI).
      apply LV1 in LV as LV0. destruct LV0 as [NK LV0].
      split. { split; [intros _; split; [exact NK|exists ct; exact LV0]|reflexivity]. }
      exists own2, ch2, blocks2. split; [eapply Rep_placed; eauto|]. split; [|split; [|split]].
      + intros p ct'. rewrite (Live_placed c chI ch2 h2 i2 k2 e2 ownI (s_disk sI) p ct' Hh2 (rp_dsk _ _ _ _ _ RPI) (proj1 (proj2 EOK)) PL V2 HN).
        rewrite EP, EC, (Live_dropped c s1 own1 ch1 blocks1 chI h1 i k e (with_status 12 e) p ct' WF RP1 Hh1 RW HE eq_refl HV), LV1, HK, HC.
        assert (LF : forall ct1, Live c ch old ct1 -> ct1 = ct).
        { intros ct1 Q. eapply live_fun; [exact WF|exact RP|exact Q|exact LV0]. }
        split.
        * intros [[Q1 Q2]|[Q1 [Q2 [Q3 Q4]]]]; [left; subst ct'; auto|right; left; auto].
        * intros [[Q1 [Q2 Q3]]|[[Q1 [Q2 Q3]]|[Q1 [Q2 Q3]]]]; [left; auto|right; auto|discriminate].
      + intros p ct' Q. apply DD1. eapply Dead_dropped; [exact RW|reflexivity|]. eapply Dead_placed; [exact PL|exact V2|exact Q].
      + intros W Q5 Q6. eapply dead_max_placed; [exact PL|exact V2|]. eapply dead_max_dropped; [exact RW|reflexivity|auto].
      + intros n Q5. destruct (DLX n Q5) as [Q6 Q7].
        assert (ST : forall m, dead_le c ch1 m -> dead_le c ch2 m).
        { intros m Q8. eapply dead_le_placed; [exact PL|exact V2|]. eapply dead_le_dropped; [exact RW|reflexivity|exact Q8]. }
        split; [intros Q8; apply ST, Q6, Q8|apply ST, Q7].
    - destruct (rep_check_none c s1 own1 ch1 blocks1 old h1 hash1 WF RP1 HLo HP1 Hh1 NLV) as (s2 & E2 & SF2 & _).
      unfold rename_rest. change ST_PRIMARY with 1. apply run_bind. eapply run_known; [exact G1|exact E2|exact SF2|]. cbn [negb].
      destruct SF2 as (Q1 & Q2 & Q3 & Q4).
      assert (NL : forall ct, ~ Live c ch1 old ct).
      { intros ct LV. destruct (rep_live_at c s1 own1 ch1 blocks1 old ct WF RP1 LV) as (h' & hash' & i & k & a & es & e & HP' & _ & Hi & Hk & HV & HK & HC).
        rewrite HP1 in HP'. assert (h' = h1) by congruence. subst h'. apply (NLV i k e); [unfold entry_at; rewrite Hi; exact Hk|exact HK|exact HV]. }
      apply run_ret; [rewrite Q1, Q2; exact G1|]. split.
      { split; [discriminate|]. intros (NK & ct & LV). exfalso. apply (NL ct). apply LV1. auto. }
      exists own1, ch1, blocks1. split; [destruct RP1; split; rewrite ?Q1, ?Q2, ?Q4; assumption|]. split; [|auto].
      intros p ct. rewrite LV1. split.
      + intros [Q5 Q6]. right; right. auto.
      + intros [[_ [Q5 _]]|[[Q5 [Q6 Q7]]|[Q5 [Q6 Q7]]]]; [discriminate|auto|auto]. }
  unfold zrename. rewrite CPY. cbv zeta. change ST_PRIMARY with 1. apply run_bind.
  destruct (rep_lookup c s own ch blocks new h2 hash2 WF RP HP2 Hh2) as [[ct LV]|NLV].
  - destruct (rep_live_at c s own ch blocks new ct WF RP LV) as (h' & hash' & i & k & a & es & e & HP' & _ & Hi & Hk & HV & HK & HC).
    rewrite HP2 in HP'. assert (h' = h2) by congruence. assert (hash' = hash2) by congruence. subst h' hash'.
    destruct (rep_check c s own ch blocks new h2 hash2 i k a es e WF RP HLn HP2 Hh2 Hi Hk HK HV) as (s1 & E1 & SF & _ & _).
    eapply run_known; [exact G0|exact E1|exact SF|]. cbv beta iota. destruct SF as (Q1 & Q2 & Q3 & Q4).
    assert (RP1 : Rep c s1 own ch blocks) by (destruct RP; split; rewrite ?Q1, ?Q2, ?Q4; assumption).
    apply run_bind.
    eapply run_conseq; [eapply run_weaken; [|apply (run_zdelete c s1 own ch blocks new WF RP1 HLn HT)]| |intros s' _ Q; exact Q].
    { intros im HG. eapply GI_readable; [exact WF|exact HG|unfold K; auto|auto]. }
    cbv beta. intros ok s2 G2 (OKI & IL2 & own2 & ch2 & blocks2 & RP2 & LV2 & DD2 & FD2 & DM2 & DL2 & _).
    rewrite (proj2 OKI) by (exists ct; exact LV). cbn [negb]. apply run_bind. apply run_getI; [exact G2|]. cbv beta zeta. rewrite IL2.
    change (run G (rename_rest c old new (numInfo (zlen new))) s2
      (fun found s' => (found = true <-> key old <> key new /\ exists ct, Live c ch old ct) /\
       exists own' ch' blocks', Rep c s' own' ch' blocks' /\
       (forall p ct, Live c ch' p ct <->
          ((key p = key new /\ found = true /\ Live c ch old ct) \/ (key p <> key new /\ key p <> key old /\ Live c ch p ct) \/
           (key p <> key new /\ found = false /\ Live c ch p ct))) /\
       (forall p ct, Dead c ch' p ct -> Dead c ch p ct \/ (key p = key new /\ Live c ch new ct)) /\
       (forall W, dead_max c ch W -> words_of new <= W \/ (forall ct, ~ Live c ch new ct) -> dead_max c ch' W) /\
       (forall n, dead_le c ch n -> ((forall ct, ~ Live c ch new ct) -> dead_le c ch' n) /\ dead_le c ch' (n + 1))) (fun _ => False)).
    apply (REST s2 own2 ch2 blocks2); auto.
    { apply DM2; [exact DM|lia]. } { intros W Q5 [Q6|Q6]; [apply DM2; auto|exfalso; exact (Q6 ct LV)]. }
    { intros n Q5. split; [intros Q6; exfalso; exact (Q6 ct LV)|]. specialize (DL2 n Q5). rewrite (proj2 OKI) in DL2 by (exists ct; exact LV). exact DL2. }
  - destruct (rep_check_none c s own ch blocks new h2 hash2 WF RP HLn HP2 Hh2 NLV) as (s1 & E1 & SF & (I1 & I2 & _)).
    eapply run_known; [exact G0|exact E1|exact SF|]. cbv beta iota. destruct SF as (Q1 & Q2 & Q3 & Q4).
    assert (RP1 : Rep c s1 own ch blocks) by (destruct RP; split; rewrite ?Q1, ?Q2, ?Q4; assumption).
    assert (G1 : G (s_disk s1, s_dhdr s1)) by (rewrite Q1, Q2; exact G0).
    apply run_bind. apply run_ret; [exact G1|]. cbn [negb]. apply run_bind. apply run_getI; [exact G1|]. cbv beta zeta.
    rewrite I2.
    change (run G (rename_rest c old new (numInfo (zlen new))) s1
      (fun found s' => (found = true <-> key old <> key new /\ exists ct, Live c ch old ct) /\
       exists own' ch' blocks', Rep c s' own' ch' blocks' /\
       (forall p ct, Live c ch' p ct <->
          ((key p = key new /\ found = true /\ Live c ch old ct) \/ (key p <> key new /\ key p <> key old /\ Live c ch p ct) \/
           (key p <> key new /\ found = false /\ Live c ch p ct))) /\
       (forall p ct, Dead c ch' p ct -> Dead c ch p ct \/ (key p = key new /\ Live c ch new ct)) /\
       (forall W, dead_max c ch W -> words_of new <= W \/ (forall ct, ~ Live c ch new ct) -> dead_max c ch' W) /\
       (forall n, dead_le c ch n -> ((forall ct, ~ Live c ch new ct) -> dead_le c ch' n) /\ dead_le c ch' (n + 1))) (fun _ => False)).
    apply (REST s1 own ch blocks); auto.
    { intros n Q5. split; [auto|]. destruct Q5 as (l & A1 & A2 & A3). exists l. split; [exact A1|]. split; [exact A2|lia]. }
    intros p ct. split; [|tauto]. intros LV. split; [|exact LV]. intros Q.
    destruct LV as (h1' & i1 & k1 & e1 & L1 & L2 & L3 & L4 & L5). assert (L4' : key (e_path e1) = key new) by congruence.
    pose proof (entry_chain c s own ch blocks RP new h2 hash2 h1' i1 k1 e1 HP2 L1 L2 L4'). subst h1'. exact (NLV _ _ _ L2 L4' L3).
Qed.
