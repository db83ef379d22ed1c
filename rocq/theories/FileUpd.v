(** * zbinUpdate: a new directory entry. *)
From Coq Require Import ZArith List Lia Bool Arith.
From Verif Require Import Base PackModel PackProps HashModel FileModel FileLemmas FileScan FileInv FileDir FileLook FileRead FileAlloc FileBin FileSlot.
Import ListNotations.
Open Scope Z_scope.

Lemma setb_bins ch h i a es es' : nth_error (ch h) i = Some (a, es) -> forall h', map fst (setb ch h i (a, es') h') = map fst (ch h').
Proof.
  intros Hi h'. unfold setb. destruct (h' =? h) eqn:E; [|reflexivity]. bz. subst. eapply lset_map; [exact Hi|reflexivity].
Qed.

(** Result of adding the entry [e] for a record to chain [h]. *)
Definition SlottedAt (c : cfg) (fs0 : Z) (L0 : list Z -> content -> Prop) (K : list Z -> Prop) (path : list Z)
    (infoAddress status : Z) (ct : content) (h : Z)
    (own : Z -> tag) (ch : chains) (s s' : st) (i k : nat) : Prop :=
  exists own' ch' blocks' e,
    Ctx c fs0 L0 K (s_disk s') own' ch' (fun _ => 0) (Some (h, i, k)) /\
    Alloc c (s_disk s') own' ch' (s_hdr s') blocks' /\
    entry_at ch' (h, i, k) = Some e /\
    (e_path e = path /\ e_status e = status /\ e_info e = infoAddress /\ e_ct e = ct /\ e_lw e = i_lastWrite (s_ifl s)) /\
    (forall h' i' k', (h', i', k') <> (h, i, k) -> entry_at ch' (h', i', k') = entry_at ch (h', i', k')) /\
    (forall e0, entry_at ch (h, i, k) = Some e0 -> e_status e0 = 11 \/ e_status e0 = 12) /\
    (forall i' k' e', entry_at ch (h, i', k') = Some e' -> e_status e' = 11 -> key (e_path e') = key path -> ~ pos_lt i' k' i k) /\
    (forall h' i' a, nth_error (ch' h') i' = Some (a, []) -> nth_error (ch h') i' = Some (a, []) /\ (h', i') <> (h, i)) /\
    ((i < length (ch h))%nat \/ forall a, ch h <> [(a, [])]) /\
    own_grows own own' /\
    (forall x, (own x = TPend \/ exists h' i' k', own x = TRec h' i' k') -> s_disk s' x = s_disk s x) /\
    s_dhdr s' = s_dhdr s /\ h_fileSize (s_hdr s) <= h_fileSize (s_hdr s') /\
    (h_numRecords (s_hdr s') = h_numRecords (s_hdr s) /\ h_numDeletes (s_hdr s') = h_numDeletes (s_hdr s)) /\
    (i_hash (s_ifl s') = i_hash (s_ifl s) /\ i_len (s_ifl s') = i_len (s_ifl s) /\ i_addInfo (s_ifl s') = infoAddress /\
     i_info (s_ifl s') = i_info (s_ifl s) /\ i_firstDate (s_ifl s') = i_firstDate (s_ifl s) /\ i_lastDate (s_ifl s') = i_lastDate (s_ifl s)).

(** The bin that zcheckInternal offers for reuse has a slot of the size needed, or room at its end, or is the last of its
    chain (otherwise zbinUpdate links a new bin behind it and drops the rest of the chain: C27). *)
Definition safe_slot (c : cfg) (l : list bin) (len : Z) : Prop :=
  forall i es, nth_error l i = Some (roomc len l, es) -> roomc len l <> 0 ->
    (exists e, In e es /\ (e_status e = 11 \/ e_status e = 12) /\ zlen (e_words e) = numberLongsInBytes len) \/
    zlen (encs es) + 7 + numberLongsInBytes len + 1 < c_binSize c \/ S i = length l.

Section PUT.
Variables (c : cfg) (fs0 : Z) (L0 : list Z -> content -> Prop) (K : list Z -> Prop).
Variables (h hash : Z) (path : list Z) (infoAddress status type : Z) (ct : content).
Hypothesis WF : wf_cfg c.
Hypothesis Hh : 0 <= h < c_maxHash c.
Hypothesis HP : zhash (c_detune c) (c_maxHash c) path = Ok (h, hash).
Hypothesis HL : zlen path <= 392.
Hypothesis HBY : is_bytes path.
Hypothesis HK : K (key path).
Hypothesis HST : status = 0 \/ status = 1 \/ status = 11.
Let G := GI c fs0 L0 K.

(** zbinUpdate.c:214-301: the entry is put at word [ic] of the current bin. *)
Definition put_entry (len ic : Z) : M unit :=
  (i2 <- getI ;;
   h <- getH ;;
   let ps := numberLongsInBytes len in
   if (Z.of_nat (length path) + 1 <? len) || (c_binSize c <? ic + 7 + ps) then ubM else
   let dates := i4toi8 false (fst (i8toi4 false (i_firstDate i2))) (fst (i8toi4 false (i_lastDate i2))) in
   let n := Z.to_nat ic in
   let e := entry_words (i_hash i2) status len infoAddress (i4toi8 false type (h_catSeq h))
              (i_lastWrite i2) dates path
              (firstn (Z.to_nat ps) (skipn (n + 7) (i_bin i2))) in
   let b := firstn n (i_bin i2) ++ e ++ skipn (n + length e) (i_bin i2) in
   setI (mkifl (i_hash i2) (i_addTable i2) (i_len i2) (i_hashBin i2) (i_binCur i2) (i_withSpace i2) infoAddress
           (i_binCur i2 + ic) (i_status i2) (i_pathLen i2) (i_binCur i2 + ic + 3) (i_typeCat i2) (i_lastWrite i2)
           dates (i_firstDate i2) (i_lastDate i2) b (i_info i2)) ;;;
   zputw (i_binCur i2) b).

Lemma run_put_entry own ch blocks s i k a es E :
  Ctx c fs0 L0 K (s_disk s) own ch (fun _ => 0) None ->
  Alloc c (s_disk s) own ch (s_hdr s) blocks ->
  fs0 <= h_fileSize (s_dhdr s) ->
  nth_error (ch h) i = Some (a, es) -> (k <= length es)%nat ->
  (forall e0, nth_error es k = Some e0 -> (e_status e0 = 11 \/ e_status e0 = 12) /\ zlen (e_words e0) = numberLongsInBytes (zlen path)) ->
  (k = length es -> zlen (encs es) + 7 + numberLongsInBytes (zlen path) <= c_binSize c - 2) ->
  i_binCur (s_ifl s) = a -> i_bin (s_ifl s) = bin_words (c_binSize c) es (next_addr 0 (ch h) i) ->
  i_hash (s_ifl s) = hash -> i_len (s_ifl s) = zlen path ->
  (forall i' k' e', entry_at ch (h, i', k') = Some e' -> e_status e' = 11 -> key (e_path e') = key path -> ~ pos_lt i' k' i k) ->
  run G (put_entry (zlen path) (zlen (encs (firstn k es)))) s
    (fun _ s' => SlottedAt c fs0 L0 K path infoAddress status ct h own ch s s' i k) E.
Proof.
  intros CX AL HD Hi Hk H0 HA BC BN IH IL HF.
  pose proof WF as (W1 & W2 & W3 & W4 & W5).
  pose proof (nlib392 (zlen path) (conj (zlen_nonneg _) HL)) as NL.
  destruct (dk_bin _ _ _ _ _ _ (cx_dsk _ _ _ _ _ _ _ _ _ CX) h i a es Hh Hi) as (B1 & B2 & B3 & B4 & B5).
  assert (G0 : G (s_disk s, s_dhdr s)) by (eapply Ctx_GI; eauto).
  set (ps := numberLongsInBytes (zlen path)) in *.
  set (ic := zlen (encs (firstn k es))).
  assert (LES : zlen (encs es) = ic + zlen (encs (skipn k es))).
  { unfold ic. rewrite <- zlen_app, <- encs_app, firstn_skipn. reflexivity. }
  pose proof (zlen_nonneg (encs (firstn k es))) as IC0. fold ic in IC0.
  assert (FIT : ic + 7 + ps <= c_binSize c - 2).
  { destruct (le_lt_dec (length es) k) as [Q|Q].
    - assert (k = length es) by lia. specialize (HA H). unfold ic. subst k. rewrite firstn_all. lia.
    - destruct (nth_error es k) as [e0|] eqn:E0; [|apply nth_error_None in E0; lia].
      destruct (H0 e0 eq_refl) as [_ Q0].
      assert (SK : skipn k es = e0 :: skipn (S k) es).
      { clear -E0. revert k E0. induction es as [|x t IHt]; intros [|k] E0; try discriminate; cbn in *; [congruence|]. apply IHt. exact E0. }
      rewrite SK, encs_cons, zlen_app, zlen_enc in LES. pose proof (zlen_nonneg (encs (skipn (S k) es))). lia. }
  set (bn := bin_words (c_binSize c) es (next_addr 0 (ch h) i)) in *.
  assert (LB : zlen bn = c_binSize c) by (unfold bn; apply bin_words_length; lia).
  set (old := firstn (Z.to_nat ps) (skipn (Z.to_nat ic + 7) bn)).
  assert (LO : length old = Z.to_nat ps).
  { unfold old. rewrite firstn_length, skipn_length. unfold zlen in LB. lia. }
  set (dates := i4toi8 false (fst (i8toi4 false (i_firstDate (s_ifl s)))) (fst (i8toi4 false (i_lastDate (s_ifl s))))).
  set (e := mke hash status (zlen path) infoAddress (i4toi8 false type (h_catSeq (s_hdr s))) (i_lastWrite (s_ifl s)) dates (path_words path old) ct).
  assert (LPW : zlen (path_words path old) = ps) by (unfold zlen; rewrite path_words_length, LO; lia).
  assert (NLB : zlen path <= 8 * ps) by (unfold ps; apply nlib_bounds; apply zlen_nonneg).
  assert (EP : e_path e = path).
  { unfold e_path, e. cbn [e_len e_words]. unfold zlen at 1. rewrite Nat2Z.id. apply path_words_text; [exact HBY|].
    rewrite LO. unfold zlen in NLB. lia. }
  assert (SH : shape e).
  { unfold shape, e. cbn [e_hash e_len e_words]. split; [|split; [split; [apply zlen_nonneg|exact HL]|exact LPW]].
    destruct (zhash_ok c path WF) as (t1 & h1 & Z1 & _ & Z2). rewrite HP in Z1. inversion Z1 as [[Q1 Q2]]. congruence. }
  assert (EOK : eok c h e).
  { split; [exact SH|]. rewrite EP. split; [exact HP|]. left. unfold storing, e. cbn [e_status]. lia. }
  assert (EW : entry_words hash status (zlen path) infoAddress (i4toi8 false type (h_catSeq (s_hdr s))) (i_lastWrite (s_ifl s)) dates path old = enc e).
  { unfold entry_words, enc, e. cbn [e_hash e_status e_len e_info e_tc e_lw e_dates e_words]. rewrite LPW. fold ps.
    unfold zlen at 2. rewrite Nat2Z.id, firstn_all. reflexivity. }
  assert (EL : zlen (enc e) = 7 + ps) by (rewrite zlen_enc; cbn [e e_words]; lia).
  destruct (place_words (c_binSize c) es k e (next_addr 0 (ch h) i)) as [PW1 PW2]; try assumption.
  { intros e0 E0. destruct (H0 e0 E0) as [_ Q]. rewrite EL, zlen_enc. lia. }
  { intros Q. specialize (HA Q). lia. }
  fold bn ic in PW1.
  unfold put_entry. step. step. step. step. cbv zeta. rewrite ltb_f by (unfold zlen; lia). fold ps. rewrite ltb_f by lia. cbn [orb].
  rewrite BN, IH, BC. fold dates old. rewrite EW. rewrite PW1.
  set (b := bin_words (c_binSize c) (place es k e) (next_addr 0 (ch h) i)) in *.
  assert (LBB : zlen b = c_binSize c) by (unfold b; apply bin_words_length; lia).
  assert (AF : a + c_binSize c - 1 < h_fileSize (s_hdr s)).
  { destruct (Z.lt_ge_cases (a + c_binSize c - 1) (h_fileSize (s_hdr s))) as [Q|Q]; [exact Q|].
    apply (al_free _ _ _ _ _ _ AL) in Q. rewrite B2 in Q by lia. discriminate. }
  step. apply run_setI; [exact G0|]. cbv beta. cbn [s_disk s_dhdr s_log s_hdr s_ifl].
  set (d' := put (s_disk s) a b).
  assert (HO : forall x, own x <> TBin h i -> d' x = s_disk s x).
  { intros x Hx. unfold d'. apply put_out. rewrite LBB.
    destruct (Z.lt_ge_cases x a); [left; lia|]. destruct (Z.lt_ge_cases x (a + c_binSize c)); [|right; lia]. exfalso. apply Hx, B2. lia. }
  assert (WB : words d' a (c_binSize c) = b) by (unfold d'; rewrite <- LBB; apply words_put).
  assert (CX' : Ctx c fs0 L0 K d' own (setb ch h i (a, place es k e)) (fun _ => 0) (Some (h, i, k))).
  { apply Ctx_place with (d := s_disk s); auto.
    - intros e0 E0. apply H0. exact E0.
    - rewrite EP. exact HK.
    - unfold live, e. cbn [e_status]. lia. }
  assert (G1 : G (d', s_dhdr s)) by (eapply Ctx_GI; eauto).
  apply run_zputw; cbn [s_disk s_dhdr s_log s_hdr s_ifl]; [exact G0|lia|lia| |exact G1|].
  { intros Q. rewrite Q in LBB. unfold zlen in LBB. cbn in LBB. lia. }
  fold d'. exists own, (setb ch h i (a, place es k e)), blocks, e. cbn [s_disk s_dhdr s_log s_hdr s_ifl].
  split; [exact CX'|]. split.
  { eapply Alloc_ext; try exact AL; try reflexivity; try lia.
    - intros x Hx. split; [|reflexivity]. apply HO. destruct Hx as [-> | ->]; discriminate.
    - apply (al_free _ _ _ _ _ _ AL).
    - apply (setb_bins ch h i a es _ Hi). }
  split. { rewrite (entry_setb ch h i a es _ h i k Hi), Z.eqb_refl, Nat.eqb_refl. cbn [andb]. apply place_at. exact Hk. }
  split; [split; [exact EP|repeat split]|]. split.
  { intros h' i' k' HN. rewrite (entry_setb ch h i a es _ h' i' k' Hi). destruct ((h' =? h) && (i =? i')%nat) eqn:EE; [|reflexivity].
    apply andb_prop in EE. destruct EE as [E1 E2]. bz. apply Nat.eqb_eq in E2. subst h' i'.
    rewrite place_other by (auto; congruence). unfold entry_at. rewrite Hi. reflexivity. }
  split. { intros e0 E0. unfold entry_at in E0. rewrite Hi in E0. apply H0. exact E0. }
  split; [exact HF|]. split.
  { intros h' i' a' Hn. rewrite setb_at in Hn by (eapply nth_error_lt; eauto).
    destruct ((h' =? h) && (i =? i')%nat) eqn:EE.
    - inversion Hn as [[Q1 Q2]]. exfalso. exact (place_nonempty es k e Q2).
    - split; [exact Hn|]. intros Q. assert (R1 : h' = h) by congruence; assert (R2 : i' = i) by congruence; rewrite R1, R2, Z.eqb_refl, Nat.eqb_refl in EE. discriminate. }
  split; [left; eapply nth_error_lt; eauto|].
  split; [split; auto|]. split. { intros x Hx. apply HO. destruct Hx as [->|(h1 & i1 & k1 & ->)]; discriminate. }
  split; [reflexivity|]. split; [lia|]. split; [auto|]. cbn; repeat split; congruence.
Qed.

Lemma run_zbinUpdate own ch blocks s b t E :
  Ctx c fs0 L0 K (s_disk s) own ch (fun _ => 0) None ->
  Alloc c (s_disk s) own ch (s_hdr s) blocks ->
  fs0 <= h_fileSize (s_dhdr s) ->
  ch h = b :: t ->
  (forall i k e, entry_at ch (h, i, k) = Some e -> key (e_path e) = key path -> ~ live e) ->
  i_hash (s_ifl s) = hash -> i_len (s_ifl s) = zlen path -> i_hashBin (s_ifl s) <> 0 ->
  i_withSpace (s_ifl s) = roomc (zlen path) (ch h) ->
  i_binCur (s_ifl s) = fst (last_b t b) -> i_bin (s_ifl s) = bin_words (c_binSize c) (snd (last_b t b)) 0 ->
  ((forall i a es, nth_error (ch h) i = Some (a, es) -> a < fs0) /\ Z.of_nat (length (ch h)) <= fs0) \/ ch h = [(fst b, [])] ->
  safe_slot c (ch h) (zlen path) ->
  run G (zbinUpdate c path infoAddress status type) s
    (fun _ s' => exists i k, SlottedAt c fs0 L0 K path infoAddress status ct h own ch s s' i k) E.
Proof.
  intros CX AL HD EC NLV IH IL HB WS BC BN HA SS.
  pose proof WF as (W1 & W2 & W3 & W4 & W5).
  pose proof (nlib392 (zlen path) (conj (zlen_nonneg _) HL)) as NL.
  assert (G0 : G (s_disk s, s_dhdr s)) by (eapply Ctx_GI; eauto).
  pose proof (cx_dsk _ _ _ _ _ _ _ _ _ CX) as DK.
  assert (HN0 : hash <> 0).
  { destruct (zhash_ok c path WF) as (t1 & h1 & Z1 & _ & Z2). rewrite HP in Z1. inversion Z1; congruence. }
  assert (BPOS : forall i a es, nth_error (ch h) i = Some (a, es) -> 100 <= a /\ a + c_binSize c - 1 < h_fileSize (s_hdr s)).
  { intros i a es Hi. destruct (dk_bin _ _ _ _ _ _ DK h i a es Hh Hi) as (B1 & B2 & _). split; [exact B1|].
    destruct (Z.lt_ge_cases (a + c_binSize c - 1) (h_fileSize (s_hdr s))) as [Q|Q]; [exact Q|].
    apply (al_free _ _ _ _ _ _ AL) in Q. rewrite B2 in Q by lia. discriminate. }
  assert (NXT : forall i, next_addr 0 (ch h) i <> 11 /\ next_addr 0 (ch h) i <> 12).
  { intros i. rewrite next_addr_nth. destruct (nth_error (ch h) (S i)) as [[a es]|] eqn:Q.
    - apply (map_nth_error fst) in Q as Q2. rewrite (nth_error_nth _ _ _ Q2). cbn [fst]. destruct (BPOS _ _ _ Q). lia.
    - apply nth_error_None in Q. rewrite nth_overflow by (rewrite maplen; lia). lia. }
  (* a same-key entry has the size we need *)
  assert (SK : forall i k e, entry_at ch (h, i, k) = Some e -> key (e_path e) = key path ->
            (e_status e = 11 \/ e_status e = 12) /\ zlen (e_words e) = numberLongsInBytes (zlen path)).
  { intros i k e HE HQ. pose proof (Dsk_eok _ _ _ _ _ _ _ _ _ _ DK Hh HE) as (SH & _ & ST).
    specialize (NLV i k e HE HQ). unfold live, storing in *. split; [lia|].
    pose proof (e_path_length e SH) as L1. pose proof (key_app_inj _ _ HQ) as L2. destruct SH as (_ & S1 & S2). rewrite S2. f_equal. unfold zlen. lia. }
  (* the chosen bin and place *)
  assert (CORE : forall i a es ur s1, nth_error (ch h) i = Some (a, es) ->
    (ur = false -> i = length t) -> (ur = true -> roomc (zlen path) (ch h) = a /\ a <> 0 /\ existsb (roomb (zlen path)) es = true /\
       forall i' a' es', (i' < i)%nat -> nth_error (ch h) i' = Some (a', es') -> existsb (roomb (zlen path)) es' = false) ->
    (ur = false -> roomc (zlen path) (ch h) = 0) ->
    s_disk s1 = s_disk s -> s_dhdr s1 = s_dhdr s -> s_hdr s1 = s_hdr s ->
    i_binCur (s_ifl s1) = a -> i_bin (s_ifl s1) = bin_words (c_binSize c) es (next_addr 0 (ch h) i) ->
    i_hash (s_ifl s1) = hash -> i_len (s_ifl s1) = zlen path -> i_hashBin (s_ifl s1) <> 0 ->
    (i_info (s_ifl s1) = i_info (s_ifl s) /\ i_firstDate (s_ifl s1) = i_firstDate (s_ifl s) /\ i_lastDate (s_ifl s1) = i_lastDate (s_ifl s) /\ i_lastWrite (s_ifl s1) = i_lastWrite (s_ifl s)) ->
    run G (i1 <- getI ;;
      match find_slot (length (i_bin i1)) (c_binSize c) ur path (i_hash i1) (i_len i1) (i_bin i1) 0 with
      | SlotUB => ubM
      | SlotErr => errM
      | SlotAt ic =>
        ic <- (if c_binSize c <=? 7 + numberLongsInBytes (i_len i1) + ic + 1 then zbinNew c ;;; ret 0 else ret ic) ;;
        put_entry (i_len i1) ic
      end) s1
      (fun _ s' => exists i k, SlottedAt c fs0 L0 K path infoAddress status ct h own ch s s' i k) E).
  { intros i a es ur s1 Hi UF UT UZ D1 D2 D3 BC1 BN1 IH1 IL1 HB1 (II1 & FD1 & LD1 & LW1).
    assert (G1 : G (s_disk s1, s_dhdr s1)) by (rewrite D1, D2; exact G0).
    destruct (dk_bin _ _ _ _ _ _ DK h i a es Hh Hi) as (B1 & B2 & B3 & B4 & B5).
    step. step. rewrite BN1, IH1, IL1.
    set (f := selb ur path hash (zlen path)). set (k := findk f es).
    assert (FS : find_slot (length (bin_words (c_binSize c) es (next_addr 0 (ch h) i))) (c_binSize c) ur path hash (zlen path)
                   (bin_words (c_binSize c) es (next_addr 0 (ch h) i)) 0 = SlotAt (zlen (encs (firstn k es)))).
    { pose proof (bin_words_length (c_binSize c) es (next_addr 0 (ch h) i) ltac:(lia)) as LB. unfold bin_words at 2. 
      rewrite find_slot_encs; try apply NXT; try assumption; try lia.
      - reflexivity.
      - eapply Forall_impl; [|exact B5]. intros x Hx. apply Hx.
      - unfold bin_words. rewrite !app_length, repeat_length. pose proof (length_encs es). unfold zlen in *. cbn [length]. lia. }
    rewrite FS. step.
    assert (LK : (k <= length es)%nat) by apply findk_le.
    assert (KH : forall e0, nth_error es k = Some e0 -> (e_status e0 = 11 \/ e_status e0 = 12) /\ zlen (e_words e0) = numberLongsInBytes (zlen path)).
    { intros e0 E0. pose proof (findk_hit f es e0 E0) as FH. unfold f, selb in FH. apply orb_prop in FH. destruct FH as [FH|FH].
      - apply andb_prop in FH. destruct FH as [FH F3]. apply andb_prop in FH. destruct FH as [_ F2]. bz. split; [|exact F3].
        apply orb_prop in F2. unfold ST_DELETED, ST_RENAMED in F2. destruct F2; bz; lia.
      - apply (SK i k e0); [unfold entry_at; rewrite Hi; exact E0|].
        apply (hitb_iff c h path hash e0); [rewrite Forall_forall in B5; apply B5; eapply nth_error_In; eauto|exact HL|exact HP|].
        unfold hitb. apply andb_prop in FH. destruct FH as [F1 F2]. apply andb_prop in F2. destruct F2 as [F2 F3]. rewrite F1.
        unfold zlen. rewrite (Z.eqb_sym (e_len e0)), F2. rewrite Nat2Z.id, F3. reflexivity. }
    assert (DEL : forall i' k' e', entry_at ch (h, i', k') = Some e' -> e_status e' = 11 -> key (e_path e') = key path -> ur = true /\ ~ pos_lt i' k' i k /\
        (i' = i -> (k < length es)%nat)).
    { intros i' k' e' HE HS HQ. destruct (SK _ _ _ HE HQ) as [_ SZ]. destruct (entry_at_bin _ _ _ _ _ HE) as (a' & es' & N1 & N2).
      assert (RB : existsb (roomb (zlen path)) es' = true).
      { apply existsb_exists. exists e'. split; [eapply nth_error_In; eauto|]. unfold roomb. rewrite HS, SZ, Z.leb_refl. reflexivity. }
      destruct ur.
      - destruct (UT eq_refl) as (U1 & U2 & U3 & U4). split; [reflexivity|].
        assert (KB : i' = i -> (k <= k' /\ k' < length es)%nat).
        { intros ->. rewrite Hi in N1. inversion N1; subst a' es'. split; [|eapply nth_error_lt; eauto]. eapply findk_before; [exact N2|].
          unfold f, selb. rewrite HS, SZ, (Z.eqb_refl (numberLongsInBytes (zlen path))). reflexivity. }
        split; [|intros Q; specialize (KB Q); lia].
        intros [Q|[Q1 Q2]]; [|specialize (KB Q1); lia]. rewrite (U4 _ _ _ Q N1) in RB. discriminate.
      - exfalso. rewrite (roomc_zero (zlen path) (ch h)) with (a := a') (es := es') in RB; [discriminate| | |eapply nth_error_In; eauto].
        + intros a1 es1 I1. apply In_nth_error in I1. destruct I1 as [j1 I1]. destruct (BPOS _ _ _ I1). lia.
        + auto. }
    destruct (c_binSize c <=? 7 + numberLongsInBytes (zlen path) + zlen (encs (firstn k es)) + 1) eqn:EF; bz.
    - (* a new bin *)
      assert (KL : k = length es).
      { destruct (le_lt_dec (length es) k) as [Q|Q]; [lia|]. exfalso.
        destruct (nth_error es k) as [e0|] eqn:E0; [|apply nth_error_None in E0; lia]. destruct (KH e0 eq_refl) as [_ SZ].
        destruct (nth_error_split es k E0) as (l1 & l2 & Q1 & Q2).
        rewrite Q1 in B4. rewrite encs_app, encs_cons, !zlen_app, zlen_enc in B4.
        rewrite Q1, <- Q2, firstn_app, Nat.sub_diag, firstn_all in EF. cbn [firstn] in EF. rewrite app_nil_r in EF.
        pose proof (zlen_nonneg (encs l2)). lia. }
      rewrite KL, firstn_all in EF.
      destruct HA as [[HA1 HA2]|HA].
      2:{ exfalso. rewrite HA in Hi. destruct i as [|[|i]]; try discriminate. cbn [nth_error] in Hi. inversion Hi. subst es. change (zlen (encs [])) with 0 in EF. lia. }
      assert (LASTI : S i = length (ch h)).
      { destruct ur; [|rewrite EC; cbn [length]; rewrite (UF eq_refl); reflexivity].
        destruct (UT eq_refl) as (U1 & U2 & U3 & U4). destruct (SS i es) as [(e0 & I0 & I1 & I2)|[Q|Q]]; [rewrite U1; exact Hi|lia| | |exact Q].
        - exfalso. apply In_nth_error in I0. destruct I0 as [j I0].
          assert (findk f es <= j)%nat as Q; [|apply nth_error_lt in I0; fold k in Q; lia].
          eapply findk_before; [exact I0|]. unfold f, selb. rewrite I2, Z.eqb_refl. unfold ST_DELETED, ST_RENAMED.
          destruct I1 as [-> | ->]; reflexivity.
        - lia. }
      assert (LL : nth_error (ch h) i = Some (last_b t b)).
      { rewrite EC in LASTI |- *. cbn [length] in LASTI. replace i with (length t) by lia. apply last_b_nth. }
      rewrite Hi in LL. inversion LL as [LL'].
      step. rewrite <- D2 in HD.
      eapply run_conseq; [eapply (run_zbinNew c fs0 L0 K own ch None blocks h s1 WF Hh) with (b := b) (t := t)| |intros s' _ Q; exact Q]; rewrite ?D1, ?D3; auto.
      { rewrite BC1, <- LL'. reflexivity. }
      cbv beta. intros _ s2 G2 (nb & (own2 & blocks2 & CX2 & AL2 & GR2 & TP2 & TR2) & DH2 & IF2 & NB2 & FS2 & _ & NR2 & ND2).
      apply run_ret; [exact G2|]. cbv beta.
      set (ch2 := addb ch h (nb, [])) in *.
      assert (N2 : nth_error (ch2 h) (length (ch h)) = Some (nb, [])) by (unfold ch2; rewrite addb_at, Z.eqb_refl, Nat.eqb_refl; reflexivity).
      assert (L2 : length (ch2 h) = S (length (ch h))) by (unfold ch2, addb; rewrite Z.eqb_refl, app_length; cbn; lia).
      eapply run_conseq; [eapply (run_put_entry own2 ch2 blocks2 s2 (length (ch h)) 0 nb []); eauto| |intros s' _ Q; exact Q].
      + rewrite DH2. exact HD.
      + intros e0 E0. discriminate.
      + intros _. change (zlen (encs [])) with 0. lia.
      + rewrite IF2. reflexivity.
      + rewrite IF2. cbn [i_bin set_bin]. rewrite next_addr_nth. rewrite nth_overflow by (rewrite maplen; lia).
        rewrite bin_words_empty by lia. reflexivity.
      + rewrite IF2. cbn. exact IH1.
      + rewrite IF2. cbn. exact IL1.
      + intros i' k' e' HE HS HQ. unfold ch2 in HE. rewrite entry_addb in HE. destruct (DEL _ _ _ HE HS HQ) as (U & NP & NK).
        exfalso. destruct (entry_at_bin _ _ _ _ _ HE) as (a' & es' & N1 & N3). pose proof (nth_error_lt _ _ _ N1) as LT.
        destruct (Nat.eq_dec i' i) as [Q|Q]; [specialize (NK Q); lia|]. apply NP. left. lia.
      + cbv beta. intros _ s' _ (own' & ch' & blocks' & e & P1 & P2 & P3 & P4 & P5 & P6 & P7 & P8 & _ & P9 & P10 & P11 & P12 & P13 & P14).
        exists (length (ch h)), 0%nat. exists own', ch', blocks', e.
        split; [exact P1|]. split; [exact P2|]. split; [exact P3|].
        split. { destruct P4 as (P41 & P42 & P43 & P44 & P45). rewrite IF2 in P45. cbn in P45. rewrite LW1 in P45. auto. }
        split. { intros h' i' k' HN. rewrite P5 by exact HN. unfold ch2. apply entry_addb. }
        split. { intros e0 E0. apply P6. unfold ch2. rewrite entry_addb. exact E0. }
        split. { intros i' k' e' E0. apply P7. unfold ch2. rewrite entry_addb. exact E0. }
        split. { intros h' i' a' Q. destruct (P8 h' i' a' Q) as [Q1 Q2]. split; [|exact Q2]. unfold ch2 in Q1. rewrite addb_at in Q1.
                 destruct ((h' =? h) && (i' =? length (ch h))%nat) eqn:QQ; [|exact Q1].
                 apply andb_prop in QQ. destruct QQ as [R1 R2]. bz. apply Nat.eqb_eq in R2. subst. contradiction. }
        split. { right. intros a' Q. rewrite Q in Hi. destruct i as [|[|i]]; try discriminate. cbn [nth_error] in Hi. inversion Hi as [[Q1 Q2]].
                 rewrite <- Q2 in EF. change (zlen (encs [])) with 0 in EF. lia. }
        assert (KEEP : forall x, (own x = TPend \/ exists h' i' k', own x = TRec h' i' k') -> own2 x = own x).
        { intros x Hx. destruct GR2 as [GR2 _]. apply GR2; intros Q; rewrite Q in Hx; destruct Hx as [Hx|(?&?&?&Hx)]; discriminate. }
        split. { destruct GR2 as [A1 A2]. destruct P9 as [A3 A4]. split.
                 - intros x Q1 Q2. rewrite A3; rewrite A1 by assumption; auto.
                 - intros x Q. rewrite A4 by exact Q. apply A2. rewrite <- (A4 x Q). exact Q. }
        split. { intros x Hx. rewrite P10 by (rewrite KEEP by exact Hx; exact Hx). rewrite <- D1.
                 destruct Hx as [Hx|(h1 & i1 & k1 & Hx)]; [apply TP2; exact Hx|eapply TR2; exact Hx]. }
        split; [congruence|]. split; [rewrite D3 in FS2; lia|]. split; [rewrite D3 in *; destruct P13; split; congruence|].
        destruct P14 as (R1 & R2 & R3 & R4 & R5 & R6). rewrite IF2 in R1, R2, R4, R5, R6. cbn in R1, R2, R4, R5, R6. repeat split; congruence.
    - apply run_ret; [exact G1|]. cbv beta.
      rewrite <- D1 in CX, AL. rewrite <- D2 in HD. rewrite <- D3 in AL.
      eapply run_conseq; [eapply (run_put_entry own ch blocks s1 i k a es); eauto| |intros s' _ Q; exact Q].
      + intros Q. rewrite Q, firstn_all in EF. lia.
      + intros i' k' e' HE HS HQ. apply (DEL _ _ _ HE HS HQ).
      + cbv beta. intros _ s' _ P. exists i, k. unfold SlottedAt in *. rewrite D1, D2, D3 in P. rewrite IH1, IL1, II1, FD1, LD1, LW1, <- IH, <- IL in P. rewrite IH, IL in P. rewrite IH, IL. exact P. }
  unfold zbinUpdate. step. step.
  assert (LN : nth_error (ch h) (length t) = Some (last_b t b)) by (rewrite EC; apply last_b_nth).
  destruct (last_b t b) as [la les] eqn:EL. cbn [fst snd] in BC, BN.
  assert (NLA : next_addr 0 (ch h) (length t) = 0) by (rewrite next_addr_nth; apply nth_overflow; rewrite maplen, EC; cbn [length]; lia).
  destruct (0 <? i_withSpace (s_ifl s)) eqn:EU; bz.
  - assert (RZ : roomc (zlen path) (ch h) <> 0) by lia.
    destruct (roomc_skip (zlen path) _ (ch h) eq_refl RZ) as (i & es & N1 & N2 & N3).
    destruct (BPOS _ _ _ N1) as [Q1 Q2].
    destruct (dk_bin _ _ _ _ _ _ DK h i _ es Hh N1) as (B1 & B2 & B3 & B4 & B5).
    step. step. step. cbn [s_disk s_dhdr s_log s_hdr s_ifl]. step. apply run_zgetw; cbn [s_disk s_dhdr s_log s_hdr s_ifl]; [exact G0|rewrite WS; lia|lia|].
    step. cbn [s_disk s_dhdr s_log s_hdr s_ifl]. rewrite WS, B3.
    apply (CORE i (roomc (zlen path) (ch h)) es true); cbn [s_disk s_dhdr s_log s_hdr s_ifl]; auto; try reflexivity; try discriminate.
  - assert (RZ : roomc (zlen path) (ch h) = 0).
    { destruct (Z.eq_dec (roomc (zlen path) (ch h)) 0) as [Q|Q]; [exact Q|].
      destruct (roomc_skip (zlen path) _ (ch h) eq_refl Q) as (i & es & N1 & _). destruct (BPOS _ _ _ N1). lia. }
    step. step. step.
    destruct (dk_bin _ _ _ _ _ _ DK h (length t) la les Hh LN) as (B1 & B2 & B3 & B4 & B5).
    assert (LB : last_bin (S (Z.to_nat (h_fileSize (s_hdr s)))) c s = OK tt s).
    { cbn [last_bin]. unfold bindM, getI. rewrite BN. rewrite bin_words_last by lia. cbn. reflexivity. }
    apply (run_known G _ tt s s); [exact G0|exact LB|unfold same_file; auto|].
    apply (CORE (length t) la les false); auto; try discriminate. rewrite NLA. exact BN.
Qed.
End PUT.
