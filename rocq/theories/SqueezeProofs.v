(** * Copying every record of a file to a new file keeps the records. *)
From Coq Require Import ZArith List Lia Bool Arith.
From Verif Require Import Base PackModel PackProps HashModel FileModel FileLemmas FileScan FileInv FileDir FileLook FileRead FileAlloc FileBin FileSlot FileUpd FileStep FileWrite FileExist FileOps FileDel FileRen FileCount FileCat FileSpec FileHist FileHistSpec FileProps SqueezeModel SqueezeSpec.
Import ListNotations.
Open Scope Z_scope.

(** ** Names *)
Lemma slash_pos_key p : forall i n, slash_pos (key p) i n = slash_pos p i n.
Proof.
  induction p as [|a t IH]; intros i n; [reflexivity|]. cbn [key map slash_pos].
  assert (E : (toupper a =? 47) = (a =? 47)).
  { unfold toupper. destruct ((97 <=? a) && (a <=? 122)) eqn:Q; [|reflexivity]. apply andb_prop in Q. destruct Q. bz.
    rewrite (proj2 (Z.eqb_neq (a - 32) 47)) by lia. rewrite (proj2 (Z.eqb_neq a 47)) by lia. reflexivity. }
  rewrite E. unfold key in IH. destruct (a =? 47); [destruct (n =? 1); [reflexivity|]|]; apply IH.
Qed.
Lemma nth_key p k : nth k (key p) 0 = toupper (nth k p 0).
Proof. unfold key. change 0 with (toupper 0) at 1. apply map_nth. Qed.
Lemma toupper_47 a : (toupper a =? 47) = (a =? 47).
Proof.
  unfold toupper. destruct ((97 <=? a) && (a <=? 122)) eqn:Q; [|reflexivity]. apply andb_prop in Q. destruct Q. bz.
  rewrite (proj2 (Z.eqb_neq (a - 32) 47)) by lia. rewrite (proj2 (Z.eqb_neq a 47)) by lia. reflexivity.
Qed.
Lemma compat_key p : ztsPathCompatible (key p) = None <-> ztsPathCompatible p = None.
Proof.
  unfold ztsPathCompatible. rewrite !slash_pos_key. destruct (slash_pos p 0 5) as [a|]; [|tauto]. destruct (slash_pos p 0 6) as [b|]; [|tauto].
  destruct ((b - a - 1 <? 4) || (5 <? b - a - 1)); [tauto|]. cbv zeta. rewrite !nth_key, !toupper_idem, !toupper_47.
  match goal with |- (if ?x then _ else _) = None <-> _ => destruct x end; split; discriminate || reflexivity.
Qed.
Lemma compat_same p q : key p = key q -> ztsPathCompatible p = None -> ztsPathCompatible q = None.
Proof. intros E H. apply compat_key. rewrite <- E. apply compat_key, H. Qed.


(** ** Contents read back fit a request *)
Lemma i8toi4_in32 w : in32 (fst (i8toi4 false w)) /\ in32 (snd (i8toi4 false w)).
Proof.
  rewrite i8toi4_value. cbn [fst snd].
  unfold sgn32, in32, INT_MIN, INT_MAX. split; [pose proof (Z.mod_pos_bound w 4294967296 ltac:(lia))|pose proof (Z.mod_pos_bound (w / 4294967296) 4294967296 ltac:(lia))];
    repeat match goal with |- context[if ?b then _ else _] => destruct b eqn:?; bz end; lia.
Qed.
Lemma unpack_in32 ws v : In v (unpack_ints ws) -> in32 v.
Proof.
  intros H. unfold unpack_ints in H. apply in_flat_map in H. destruct H as (w & _ & H). pose proof (i8toi4_in32 w) as [A B].
  destruct (i8toi4 false w) as [x y]. cbn [fst snd In] in *. destruct H as [<-|[<-|[]]]; assumption.
Qed.
Lemma in_firstn {A} n (l : list A) x : In x (firstn n l) -> In x l.
Proof. intros H. rewrite <- (firstn_skipn n l). apply in_or_app. left. exact H. Qed.
Lemma ints_at_in32 d a n v : In v (ints_at d a n) -> - 2 ^ 31 <= v < 2 ^ 31.
Proof. intros H. apply in32_pow. eapply unpack_in32, in_firstn, H. Qed.
Lemma ints_at_len d a n : cnt_ok n -> Z.of_nat (length (ints_at d a n)) <= 10000000.
Proof. intros H. unfold ints_at. rewrite firstn_length. unfold cnt_ok in H. lia. Qed.

Definition normal (ct : content) : Prop := 0 <= ct_num ct /\ (0 < ct_logical ct \/ ct_logical ct = ct_num ct).
Lemma stored_normal x : normal (stored x).
Proof. unfold normal, stored. cbn. split; [lia|]. destruct (0 <? x_logical x) eqn:E; bz; [left; exact E|right; reflexivity]. Qed.
Definition all_normal (f : file) : Prop := (forall q ct, records f q = Some ct -> normal ct) /\ (forall q ct, trash f q ct -> normal ct).
Lemma step_normal f o r f' : step f o r f' -> all_normal f -> all_normal f'.
Proof.
  intros ST [N1 N2].
  assert (S : forall g q v, (forall q ct, g q = Some ct -> normal ct) -> (forall ct, v = Some ct -> normal ct) -> forall q' ct, set g q v q' = Some ct -> normal ct).
  { intros g q v H1 H2 q' ct. unfold set. destruct (list_eq_dec Z.eq_dec q' q); eauto. }
  inversion ST; subst; split; cbn [records trash]; auto.
  - apply S; [exact N1|]. intros ct E. inversion E; subst. apply stored_normal.
  - apply S; [exact N1|discriminate].
  - intros q ct' [Q|[-> ->]]; eauto.
  - apply S; [exact N1|]. intros ct' E. inversion E; subst. eauto.
  - apply S; [apply S; [exact N1|discriminate]|]. intros ct' E. inversion E; subst. eauto.
  - intros q ct' [Q|[-> Q]]; eauto.
  - apply S; [exact N1|discriminate].
  - intros q ct' [Q|[-> Q]]; eauto.
Qed.
Lemma mapped_normal f ops f' : mapped f ops f' -> all_normal f -> all_normal f'.
Proof. induction 1; [auto|]. intros H1. apply IHmapped. eapply step_normal; eauto. Qed.

(** ** A record of the source *)
Section SRC.
Variables (c : cfg) (s : st) (own : Z -> tag) (ch : chains) (blocks : list Z).
Hypothesis WF : wf_cfg c.
Hypothesis RP : Rep c s own ch blocks.
Variables (h : Z) (i k : nat) (e : entry).
Hypothesis Hh : 0 <= h < c_maxHash c.
Hypothesis HE : entry_at ch (h, i, k) = Some e.
Hypothesis HV : live e.
Let d := s_disk s.
Let f := info_at d (e_info e).

Lemma src_rec : rec_ok d own (TRec h i k) e.
Proof. apply (dk_rec _ _ _ _ _ _ (rp_dsk _ _ _ _ _ RP) h i k e Hh HE); [unfold storing, live in *; tauto|discriminate]. Qed.
Lemma src_shape : shape e.
Proof. eapply (Dsk_eok _ _ _ _ _ _ _ _ _ _ (rp_dsk _ _ _ _ _ RP) Hh HE). Qed.
Lemma src_read : read_info f s = OK (e_ct e) s.
Proof.
  pose proof src_rec as (R1 & R2 & R3 & cap & R4 & R5 & R6 & R7 & R8). cbv zeta in *.
  change (fun k => d (e_info e + k)) with f in *. change (d (e_info e + 13)) with (f 13) in *.
  assert (HO : forall x, own x = TRec h i k -> x <= h_fileSize (s_hdr s) + 100000).
  { intros y Hy. pose proof (rep_rec c s own ch blocks RP y h i k Hy). lia. }
  destruct R7 as (C1 & C2 & C3 & C4 & C5 & C6 & F1 & F2 & F3 & F4 & F5 & F6 & _).
  pose proof (cnt_words _ C1). pose proof (cnt_words _ C2). pose proof (cnt_words _ C3).
  pose proof (cnt_words _ C4). pose proof (cnt_words _ C5). pose proof (cnt_words _ C6).
  unfold read_info, bindM.
  rewrite (read_section_eq d s _ _ eq_refl) by (assumption || lia || (intros; apply HO, R4; lia)).
  rewrite (read_section_eq d s _ _ eq_refl) by (assumption || lia || (intros; apply HO, R4; lia)).
  rewrite (read_user_header_eq d s _ _ eq_refl) by (assumption || lia || (intros; apply HO, R4; lia)).
  rewrite (read_section_eq d s _ _ eq_refl) by (assumption || lia || (intros; apply HO, R4; lia)).
  rewrite (read_section_eq d s _ _ eq_refl) by (assumption || lia || (intros; apply HO, R4; lia)).
  rewrite (read_section_eq d s _ _ eq_refl) by (assumption || lia || (intros; apply HO, R4; lia)).
  unfold ret. rewrite <- R8. reflexivity.
Qed.
Lemma small_low v : 0 <= v <= 392 -> fst (i8toi4 false v) = v.
Proof.
  intros H. rewrite i8toi4_value. cbn [fst]. unfold sgn32. rewrite Z.mod_small by lia.
  repeat match goal with |- context[if ?b then _ else _] => destruct b eqn:?; bz end; lia.
Qed.
Lemma src_path : info_path f = e_path e.
Proof.
  pose proof src_rec as (_ & _ & (N1 & N2 & N3 & N4 & N5) & _). cbv beta in *. unfold info_path.
  assert (E : f 2 = e_len e) by exact N4. rewrite E, small_low by apply src_shape. exact N5.
Qed.
Lemma src_looks : 0 < e_len e -> looks d (e_info e) = true.
Proof.
  intros L. pose proof src_rec as (_ & _ & (N1 & N2 & N3 & N4 & N5) & _). cbv beta in *. pose proof src_shape as (_ & SL & _).
  unfold looks. replace (d (e_info e)) with INFO_FLAG by (rewrite <- N2; f_equal; lia). rewrite N4, small_low by lia.
  rewrite (small_low (d (e_info e + 1))) by (specialize (N3 HV); lia).
  rewrite (proj2 (Z.ltb_lt 0 _)) by lia. rewrite (proj2 (Z.ltb_lt (e_len e) 393)) by lia. cbn [andb Z.eqb].
  change (INFO_FLAG =? INFO_FLAG) with true. cbn [andb]. unfold zcompareRecordStatus. rewrite (proj2 (Z.leb_le _ ST_PRIMARY)) by (apply N3, HV). reflexivity.
Qed.
Lemma src_listed : 0 < e_len e -> In (e_info e) (found_headers s).
Proof.
  intros L. unfold found_headers. apply filter_In. split; [|apply src_looks, L].
  pose proof src_rec as (R1 & R2 & _). pose proof (numInfo_bounds (e_len e) (proj1 (proj2 src_shape))) as NB.
  assert (B : e_info e < h_fileSize (s_hdr s)) by (eapply (rep_rec c s own ch blocks RP _ h i k); apply R2; lia).
  unfold zseq. apply in_map_iff. exists (Z.to_nat (e_info e)). split; [lia|]. apply in_seq. lia.
Qed.
Lemma src_bytes : is_bytes (e_path e).
Proof.
  apply Forall_forall. intros b Hb. unfold e_path in Hb. apply in_firstn in Hb. pose proof (bytes_of_words_bytes (e_words e)) as Q.
  unfold is_bytes in Q. rewrite Forall_forall in Q. apply Q, Hb.
Qed.
Lemma src_name : ztsPathCompatible (e_path e) = None -> name_ok (e_path e).
Proof.
  intros H. split; [rewrite (e_path_length e src_shape); pose proof src_shape as (_ & ? & _); lia|]. split; [|exact H].
  pose proof src_bytes as Q. unfold is_bytes in Q. rewrite Forall_forall in Q. exact Q.
Qed.
Lemma src_fits ev : ztsPathCompatible (e_path e) = None -> proper (e_path e) -> plain_units (e_ct e) ->
  request_fits (fst (copy_request ev f (info_path f) (e_ct e))).
Proof.
  intros HT PR PU. rewrite src_path. unfold copy_request. cbv zeta. cbn [fst]. rewrite copy_path_id by exact PR.
  assert (EIH : (if is_ts (ct_type (e_ct e)) && (1 <? zlen (ct_ih (e_ct e)) - 17) && negb (has_padding (ct_ih (e_ct e))) then v_padded ev (ct_ih (e_ct e)) else ct_ih (e_ct e)) = ct_ih (e_ct e)).
  { destruct (is_ts (ct_type (e_ct e)) && (1 <? zlen (ct_ih (e_ct e)) - 17) && negb (has_padding (ct_ih (e_ct e)))) eqn:Q; [|reflexivity].
    exfalso. apply andb_prop in Q. destruct Q as [Q Q3]. apply andb_prop in Q. destruct Q as [Q1 Q2]. apply andb_prop in Q1. destruct Q1. bz.
    destruct (PU ltac:(lia)) as [P|[P|P]].
    - unfold zlen in Q2. lia.
    - unfold has_padding in Q3. rewrite P in Q3. discriminate.
    - unfold has_padding in Q3. rewrite P in Q3. discriminate. }
  rewrite EIH. pose proof src_rec as (_ & _ & _ & cap & _ & _ & _ & R7 & R8). cbv zeta beta in *.
  destruct R7 as (C1 & C2 & C3 & C4 & C5 & C6 & _). cbv beta in *.
  split; [apply src_name, HT|]. rewrite <- R8. unfold rec_content. cbn [x_type x_ih x_h2 x_uh x_v1 x_v2 x_v3 ct_type ct_ih ct_h2 ct_uh ct_v1 ct_v2 ct_v3].
  split; [apply in32_pow, i8toi4_in32|]. intros l Hl. cbn [In] in Hl.
  repeat (destruct Hl as [<-|Hl]; [split; [intros v; apply ints_at_in32|apply ints_at_len; assumption]|]). contradiction.
Qed.
Lemma src_stored ev : proper (e_path e) -> plain_units (e_ct e) -> normal (e_ct e) ->
  stored (fst (copy_request ev f (info_path f) (e_ct e))) = e_ct e /\ x_path (fst (copy_request ev f (info_path f) (e_ct e))) = e_path e.
Proof.
  intros PR PU (NM1 & NM2). rewrite src_path. unfold copy_request. cbv zeta. cbn [fst]. rewrite copy_path_id by exact PR. split; [|reflexivity].
  assert (EIH : (if is_ts (ct_type (e_ct e)) && (1 <? zlen (ct_ih (e_ct e)) - 17) && negb (has_padding (ct_ih (e_ct e))) then v_padded ev (ct_ih (e_ct e)) else ct_ih (e_ct e)) = ct_ih (e_ct e)).
  { destruct (is_ts (ct_type (e_ct e)) && (1 <? zlen (ct_ih (e_ct e)) - 17) && negb (has_padding (ct_ih (e_ct e)))) eqn:Q; [|reflexivity].
    exfalso. apply andb_prop in Q. destruct Q as [Q Q3]. apply andb_prop in Q. destruct Q as [Q1 Q2]. apply andb_prop in Q1. destruct Q1. bz.
    destruct (PU ltac:(lia)) as [P|[P|P]].
    - unfold zlen in Q2. lia.
    - unfold has_padding in Q3. rewrite P in Q3. discriminate.
    - unfold has_padding in Q3. rewrite P in Q3. discriminate. }
  rewrite EIH. unfold stored. cbn [x_type x_ih x_h2 x_uh x_v1 x_v2 x_v3 x_num x_logical].
  replace (Z.max 0 (ct_num (e_ct e))) with (ct_num (e_ct e)) by lia.
  replace (if 0 <? ct_logical (e_ct e) then ct_logical (e_ct e) else ct_num (e_ct e)) with (ct_logical (e_ct e))
    by (destruct (0 <? ct_logical (e_ct e)) eqn:Q; bz; lia).
  destruct (e_ct e); reflexivity.
Qed.
End SRC.

(** ** Patching the info block of a record *)
Lemma rec_ok_patch d d' own t e : shape e -> rec_ok d own t e ->
  (forall x, own x = t -> (x < e_info e + 4 \/ e_info e + 13 <= x) -> x <> e_info e + 29 -> d' x = d x) ->
  fst (i8toi4 false (d' (e_info e + 4))) = fst (i8toi4 false (d (e_info e + 4))) -> rec_ok d' own t e.
Proof.
  intros Hs (H1 & H2 & H3 & cap & H4 & H5 & H6 & H7 & H8) HD HT.
  pose proof (numInfo_bounds (e_len e) (proj1 (proj2 Hs))) as HN.
  assert (F : forall k, 0 <= k < 4 \/ 13 <= k < 29 \/ 30 <= k < numInfo (e_len e) -> d' (e_info e + k) = d (e_info e + k)) by (intros k Hk; apply HD; [apply H2|..]; lia).
  unfold rec_ok. cbv zeta. split; [assumption|]. split; [exact H2|]. split.
  { destruct H3 as (N1 & N2 & N3 & N4 & N5). unfold named.
    split; [rewrite F by lia; exact N1|]. split; [rewrite F by lia; exact N2|].
    split; [rewrite F by lia; exact N3|]. split; [rewrite F by lia; exact N4|]. rewrite <- N5. f_equal. f_equal. unfold tabulate.
    apply map_ext_in. intros k Hk. unfold zseq in Hk. apply in_map_iff in Hk. destruct Hk as (j & <- & Hj). apply in_seq in Hj.
    pose proof (nlib392 _ (proj1 (proj2 Hs))). unfold numInfo in F. apply F. lia. }
  rewrite !F by lia.
  exists cap. split; [exact H4|]. split; [exact H5|]. split; [exact H6|].
  split; [unfold lay_ok in *; rewrite !F by lia; exact H7|].
  rewrite <- H8. unfold rec_content. rewrite HT. rewrite !F by lia.
  destruct H7 as (C1 & C2 & C3 & C4 & C5 & C6 & E1 & E2 & E3 & E4 & E5 & E6 & _).
  pose proof (cnt_words _ C1). pose proof (cnt_words _ C2). pose proof (cnt_words _ C3).
  pose proof (cnt_words _ C4). pose proof (cnt_words _ C5). pose proof (cnt_words _ C6).
  f_equal; apply ints_at_ext; intros x Hx; apply HD; try (apply H4; lia); lia.
Qed.

Lemma Rep_patch c s own ch blocks h i k e n g lg ifl' : wf_cfg c -> Rep c s own ch blocks -> 0 <= h < c_maxHash c ->
  entry_at ch (h, i, k) = Some e -> live e -> n = numInfo (e_len e) ->
  (forall j, 0 <= j < n -> (j < 4 \/ 13 <= j) -> j <> 29 -> g j = s_disk s (e_info e + j)) ->
  fst (i8toi4 false (g 4)) = fst (i8toi4 false (s_disk s (e_info e + 4))) ->
  Rep c (mkst (put (s_disk s) (e_info e) (tabulate g n)) (s_hdr s) lg (s_hdr s) ifl') own ch blocks.
Proof.
  intros WF RP Hh HE HV -> HG HT. pose proof (src_rec c s own ch blocks RP h i k e Hh HE HV) as RO.
  pose proof (src_shape c s own ch blocks RP h i k e Hh HE) as SH. pose proof (numInfo_bounds (e_len e) (proj1 (proj2 SH))) as NB.
  pose proof RO as (R1 & R2 & _).
  assert (OUT : forall x, own x <> TRec h i k -> put (s_disk s) (e_info e) (tabulate g (numInfo (e_len e))) x = s_disk s x).
  { intros x Hx. apply put_out. rewrite zlen_tabulate by lia. destruct (Z.lt_ge_cases x (e_info e)); [left; lia|].
    destruct (Z.lt_ge_cases x (e_info e + numInfo (e_len e))); [|right; lia]. exfalso. apply Hx, R2. lia. }
  destruct RP as [P1 P2 P3 P4 P5 P6]. split; cbn [s_disk s_hdr s_dhdr]; auto.
  - apply (Dsk_unexempt c _ own ch (fun _ => 0) h i k e).
    + apply Dsk_ext with (d := s_disk s) (own := own); [apply Dsk_exempt; exact P1| |auto].
      intros x Hx. apply OUT. intros Q. unfold critical in Hx. rewrite Q in Hx. congruence.
    + exact HE.
    + intros _. apply (rec_ok_patch (s_disk s)); [exact SH|exact RO| |].
      * intros x Ox Hx Nx. destruct (Z.lt_ge_cases x (e_info e)); [apply put_out; lia|].
        destruct (Z.lt_ge_cases x (e_info e + numInfo (e_len e))); [|apply put_out; rewrite zlen_tabulate by lia; lia].
        rewrite put_tabulate by lia. rewrite HG by lia. f_equal. lia.
      * rewrite put_tabulate by lia. replace (e_info e + 4 - e_info e) with 4 by lia. exact HT.
  - eapply Alloc_disk; [exact P2|]. intros x Hx. apply OUT. destruct Hx as [-> | ->]; discriminate.
Qed.

(** ** Copying one record *)
Lemma no_dead c W t g own ch blocks : Rep c t own ch blocks -> (forall p ct, Dead c ch p ct -> trash g (key p) ct) -> (forall q ct, ~ trash g q ct) ->
  dead_max c ch W /\ (forall n, 0 <= n -> dead_le c ch n).
Proof.
  intros RP HD HT. assert (X : forall h i k e, 0 <= h < c_maxHash c -> entry_at ch (h, i, k) = Some e -> e_status e = 11 -> False).
  { intros h i k e Hh HE HS. apply (HT (key (e_path e)) (e_ct e)). apply HD. exists h, i, k, e. auto. }
  split; [intros h i k e Hh HE HS; exfalso; eauto|]. intros n Hn. exists []. split; [constructor|]. split; [intros h i k e Hh HE HS; exfalso; eauto|cbn; lia].
Qed.
Lemma inv_any c W W' t g : Inv c W t g -> (forall q ct, ~ trash g q ct) -> Inv c W' t g.
Proof.
  intros [(own & ch & blocks & RP & LV & DD & DM & DL) I2 I3] HT. split; auto. exists own, ch, blocks.
  destruct (no_dead c W' t g own ch blocks RP DD HT) as [A B]. repeat (split; [assumption|]). exact DL.
Qed.
Definition clean_add (g : file) (q : list Z) (ct : content) : file := mkfile (set (records g) q (Some ct)) (trash g).

Lemma copy_one c s own ch blocks c' ev t g h i k e : wf_cfg c -> Rep c s own ch blocks -> wf_cfg c' ->
  0 <= h < c_maxHash c -> entry_at ch (h, i, k) = Some e -> live e ->
  ztsPathCompatible (e_path e) = None -> proper (e_path e) -> plain_units (e_ct e) -> normal (e_ct e) ->
  Inv c' 0 t g -> (forall q ct, ~ trash g q ct) -> records g (key (e_path e)) = None ->
  exists t', copy_record c' ev s (e_info e) t = OK tt t' /\ Inv c' 0 t' (clean_add g (key (e_path e)) (e_ct e)).
Proof.
  intros WF RP WF' Hh HE HV HT PR PU NM IV TE RN.
  pose proof (src_fits c s own ch blocks RP h i k e Hh HE HV ev HT PR PU) as FIT.
  destruct (src_stored c s own ch blocks RP h i k e Hh HE HV ev PR PU NM) as [EST EPA].
  pose proof (src_read c s own ch blocks RP h i k e Hh HE HV) as SR.
  set (f := info_at (s_disk s) (e_info e)) in *.
  unfold copy_record. fold f. rewrite SR.
  destruct (copy_request ev f (info_path f) (e_ct e)) as [x expNo] eqn:EX. cbn [fst] in *.
  assert (TYX : x_type x = ct_type (e_ct e)) by (unfold copy_request in EX; cbv zeta in EX; inversion EX; reflexivity).
  set (t0 := mkst (s_disk t) (s_dhdr t) (s_log t) (s_hdr t) (set_dataDates (f 9) (f 10) (s_ifl t))).
  assert (IV0 : Inv c' 0 t0 g) by (apply (same_file_inv c' 0 t); [repeat split|exact IV]).
  unfold bindM at 1. unfold modI at 1, bindM at 1, getI at 1, setI at 1. fold t0.
  assert (NW : 0 <= name_words (x_path x)) by (unfold name_words; apply Z.div_pos; lia).
  assert (HO : forall ct, records g (canon (x_path x)) = Some ct -> odd_request x <= odd_record ct).
  { intros ct Q. exfalso. rewrite EPA in Q. change (canon (e_path e)) with (key (e_path e)) in Q. congruence. }
  destruct (out_write c' 0 t0 g WF' IV0 (v_now ev) (v_prog ev) x FIT NW HO) as (r & t1 & EXE & _ & g1 & ST & IV1).
  cbn [exec] in EXE.
  destruct IV0 as [(own0 & ch0 & blocks0 & RP0 & LV0 & DD0 & DM0 & DL0) I02 I03].
  destruct (request_fits_ok x FIT) as (RQ & HTx).
  assert (SS : forall h hash, zhash (c_detune c') (c_maxHash c') (x_path x) = Ok (h, hash) -> safe_slot c' (ch0 h) (zlen (x_path x))).
  { intros h0 hash HP. destruct (zhash_ok c' (x_path x) WF') as (h1 & hash1 & HP1 & Hh1 & _). assert (h1 = h0) by congruence. subst h1.
    eapply dead_max_safe; eauto. apply (rp_dsk _ _ _ _ _ RP0). rewrite <- name_words_of. exact NW. }
  assert (EV : forall ct, Live c' ch0 (x_path x) ct -> odd_headers x <= odd_content ct) by (intros ct Q; apply HO, LV0, Q).
  pose proof (run_zwriteInternal c' (v_now ev) (v_prog ev) x t0 own0 ch0 blocks0 WF' RP0 RQ EV HTx SS) as R. unfold run in R.
  unfold bindM at 1. destruct (zwriteInternal c' (v_now ev) (v_prog ev) x t0) as [[] t1'|t1'|] eqn:EZ; [| |contradiction].
  2:{ exfalso. destruct R as [_ [(ct & LVx & _) _]]. apply LV0 in LVx. rewrite EPA, RN in LVx. discriminate. }
  inversion EXE; subst r t1'. clear EXE.
  destruct R as [_ [_ (own' & ch' & blocks' & RP' & LV' & DD' & DM' & DL' & (h2 & i2 & k2 & e2 & Hh2 & HE2 & HV2 & KE2 & AI & DI) & _)]].
  unfold bindM at 1, getI at 1. unfold bindM at 1. unfold modI at 1, bindM at 1, getI at 1, setI at 1.
  pose proof (src_shape c' t1 own' ch' blocks' RP' h2 i2 k2 e2 Hh2 HE2) as SH2. pose proof (numInfo_bounds (e_len e2) (proj1 (proj2 SH2))) as NB.
  pose proof (src_rec c' t1 own' ch' blocks' RP' h2 i2 k2 e2 Hh2 HE2 HV2) as RO2. pose proof RO2 as (B1 & B2 & B3 & cap & _ & _ & _ & _ & B8).
  assert (E2L : i_info (s_ifl t1) 2 = e_len e2) by (rewrite <- DI by lia; apply B3).
  rewrite E2L, small_low by apply SH2. rewrite AI.
  set (G := patched f (i_info (s_ifl t1)) expNo).
  assert (B9 : e_info e2 < h_fileSize (s_hdr t1)) by (eapply (rep_rec c' t1 own' ch' blocks' RP' _ h2 i2 k2); apply B2; lia).
  unfold bindM at 1. unfold zputw at 1. cbn [s_hdr s_disk s_dhdr s_log s_ifl]. rewrite ltb_f by lia. rewrite ltb_f by lia. cbn [orb].
  rewrite ltb_f by (pose proof (zlen_tabulate G (numInfo (e_len e2)) ltac:(lia)) as Q; unfold zlen in Q; lia).
  destruct (tabulate G (numInfo (e_len e2))) as [|w0 ws] eqn:ET.
  { exfalso. pose proof (zlen_tabulate G (numInfo (e_len e2)) ltac:(lia)) as Q. rewrite ET in Q. change (zlen []) with 0 in Q. lia. }
  rewrite <- ET. unfold zpermWrite. cbn [issue apply_wr s_hdr s_disk s_dhdr s_log s_ifl]. eexists. split; [reflexivity|].
  assert (CT2 : e_ct e2 = e_ct e).
  { assert (Q : Live c' ch' (x_path x) (e_ct e2)) by (exists h2, i2, k2, e2; auto). apply LV' in Q. destruct Q as [[_ Q]|[Q _]]; [|congruence].
    rewrite Q, <- stored_content. exact EST. }
  pose proof (src_rec c s own ch blocks RP h i k e Hh HE HV) as (_ & _ & _ & _ & _ & _ & _ & _ & S8).
  assert (IV2 : exists own ch blocks, Rep c' t1 own ch blocks /\ True) by eauto.
  assert (EG1 : g1 = clean_add g (key (e_path e)) (e_ct e)).
  { inversion ST; subst. unfold clean_add. rewrite EST, EPA. reflexivity. }
  destruct IV1 as [(o1 & c1 & b1 & RP1 & _ & _ & _ & DL1) I12 I13].
  assert (DDE : forall p ct, Dead c' ch' p ct -> False) by (intros p ct Q; apply (TE (key p) ct); apply DD0, DD', Q).
  split.
  - exists own', ch', blocks'. split; [|split; [|split; [|split]]].
    + eapply (Rep_patch c' t1 own' ch' blocks' h2 i2 k2 e2); eauto.
      * intros j Hj L N. unfold G, patched. rewrite DI by exact Hj.
        rewrite (proj2 (Z.eqb_neq j 5)) by lia. rewrite (proj2 (Z.eqb_neq j 4)) by lia. rewrite (proj2 (Z.eqb_neq j 6)) by lia.
        rewrite (proj2 (Z.eqb_neq j 7)) by lia. rewrite (proj2 (Z.eqb_neq j 8)) by lia. rewrite (proj2 (Z.eqb_neq j 9)) by lia.
        rewrite (proj2 (Z.eqb_neq j 11)) by lia. rewrite (proj2 (Z.eqb_neq j 12)) by lia. rewrite (proj2 (Z.eqb_neq j 29)) by lia. reflexivity.
      * unfold G, patched. cbn [Z.eqb Pos.eqb orb]. cbv zeta beta in B8, S8.
        assert (Q1 : fst (i8toi4 false (f 4)) = ct_type (e_ct e)) by (rewrite <- S8; reflexivity).
        assert (Q2 : fst (i8toi4 false (s_disk t1 (e_info e2 + 4))) = ct_type (e_ct e2)) by (rewrite <- B8; reflexivity).
        rewrite Q1, Q2, CT2. reflexivity.
    + intros p ct. rewrite LV', <- stored_content, EST, EPA. unfold clean_add. cbn [records].
      destruct (list_eq_dec Z.eq_dec (key p) (key (e_path e))) as [E|E].
      * rewrite E, set_same. split; [intros [[_ ->]|[Q _]]; [reflexivity|congruence]|intros Q; left; split; congruence].
      * rewrite set_other by exact E. rewrite <- LV0. tauto.
    + intros p ct Q. exfalso. eauto.
    + intros h3 i3 k3 e3 Hh3 HE3 HS3. exfalso. apply (DDE (e_path e3) (e_ct e3)). exists h3, i3, k3, e3. auto.
    + cbn [s_hdr]. exists []. split; [constructor|]. split; [|cbn [length]; change (Z.of_nat 0) with 0; eapply dead_le_nonneg; eauto].
      intros h3 i3 k3 e3 Hh3 HE3 HS3. exfalso. apply (DDE (e_path e3) (e_ct e3)). exists h3, i3, k3, e3. auto.
  - cbn [s_hdr]. exact I12.
  - cbn [s_hdr]. rewrite <- EG1. exact I13.
Qed.
