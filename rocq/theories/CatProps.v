(** * C47: a catalogue with a pattern lists exactly the records the pattern selects. *)
From Coq Require Import ZArith List Lia Bool ZifyBool.
From Verif Require Import Base ArrayLib PackModel PackProps HashModel FileModel FileLemmas FileScan FileInv FileDir FileLook FileRead FileAlloc FileBin FileSlot FileUpd FileStep FileWrite FileExist FileOps FileDel FileRen FileCount FileCat FileSpec FileHist FileHistSpec FileProps CStr CStrProofs PathModel PathSpec PathProofs PathProps CatModel CatSpec CatProofs CatScan.
Import ListNotations.
Open Scope Z_scope.

(** ** The pattern does not see the case of letters *)
Lemma canon_slash x : canon_char x = 47 <-> x = 47.
Proof. unfold canon_char. destruct ((97 <=? x) && (x <=? 122)) eqn:E; lia. Qed.
Lemma canon_c_text a b : canon a = canon b -> c_text b -> c_text a.
Proof.
  revert b. induction a as [|x a IH]; intros [|y b] E H; try discriminate; [constructor|]. cbn [canon map] in E. inversion E as [[E1 E2]]. inversion_clear H as [|? ? H1 H2].
  constructor; [|exact (IH b E2 H2)]. unfold canon_char in E1. destruct ((97 <=? x) && (x <=? 122)) eqn:G; destruct ((97 <=? y) && (y <=? 122)) eqn:G'; lia.
Qed.
Lemma canon_no_slash a b : canon a = canon b -> no_slash b -> no_slash a.
Proof.
  intros E H Q. apply H. clear H. revert b E. induction a as [|x a IH]; intros [|y b] E; try discriminate; [destruct Q|]. cbn [canon map] in E. inversion E as [[E1 E2]].
  destruct Q as [Q|Q]; [left; apply canon_slash; rewrite <- E1; apply canon_slash; exact Q|right; apply IH; assumption].
Qed.
Lemma split_canon : forall b r q, canon q = canon b ++ r -> exists a q', q = a ++ q' /\ canon a = canon b /\ canon q' = r.
Proof.
  induction b as [|y b IH]; intros r q E; [exists [], q; auto|]. destruct q as [|x q]; [discriminate|]. cbn [canon map app] in E. inversion E as [[E1 E2]].
  destruct (IH _ _ E2) as (a & q' & -> & E3 & E4). exists (x :: a), q'. cbn [canon map app]. split; [reflexivity|]. split; [|exact E4]. f_equal; assumption.
Qed.
(** A text that differs from a pathname by case only is a pathname with parts that differ by case only. *)
Lemma same_parts q ps : canon q = canon (path_text ps) -> exists ps', q = path_text ps' /\ Forall2 (fun a b => canon a = canon b) ps' ps.
Proof.
  unfold path_text. destruct q as [|x q]; [discriminate|]. cbn [canon map]. intros E. inversion E as [[E1 E2]]. apply (proj1 (canon_slash _)) in E1. subst x. clear E.
  assert (G : exists ps', q = concat (map (fun p => p ++ [47]) ps') /\ Forall2 (fun a b => canon a = canon b) ps' ps).
  { revert q E2. induction ps as [|p ps IH]; intros q E.
    - destruct q; [|discriminate]. exists []. split; [reflexivity|constructor].
    - cbn [map concat] in E. rewrite <- app_assoc in E. rewrite canon_app in E. destruct (split_canon _ _ _ E) as (a & q' & -> & E3 & E4).
      destruct q' as [|x q']; [discriminate|]. cbn [canon map app] in E4. inversion E4 as [[E5 E6]]. apply (proj1 (canon_slash _)) in E5. subst x.
      destruct (IH q' E6) as (ps' & -> & F). exists (a :: ps'). split; [cbn [map concat]; rewrite <- app_assoc; reflexivity|constructor; assumption]. }
  destruct G as (ps' & -> & F). exists ps'. split; [reflexivity|exact F].
Qed.
Definition alike (ps' ps : list (list Z)) : Prop := Forall2 (fun a b => canon a = canon b) ps' ps.
Lemma alike_six ps' ps : alike ps' ps -> six_parts ps -> six_parts ps'.
Proof.
  intros F (H1 & H2 & H3). split; [rewrite <- H1; clear - F; induction F; cbn; congruence|]. split; clear H1.
  - clear H3. induction F as [|a b l l' E F IH]; [constructor|]. inversion_clear H2. constructor; [eapply canon_no_slash; eauto|auto].
  - clear H2. induction F as [|a b l l' E F IH]; [constructor|]. inversion_clear H3. constructor; [eapply canon_c_text; eauto|auto].
Qed.
Lemma canon_length_eq a b : canon a = canon b -> length a = length b.
Proof. intros E. apply (f_equal (@length _)) in E. rewrite !canon_len in E. exact E. Qed.
Lemma alike_short ps' ps : alike ps' ps -> short_parts ps -> short_parts ps'.
Proof. induction 1 as [|a b l l' E F IH]; intros H; [constructor|]. inversion_clear H. constructor; [rewrite (canon_length_eq _ _ E); assumption|apply IH; assumption]. Qed.
Lemma alike_safe ws ps' ps : alike ps' ps -> safe ws ps -> safe ws ps'.
Proof.
  intros F. revert ws. induction F as [|a b l l' E F IH]; intros ws H; inversion H as [|w ? ws' ? [S1 S2] S3]; subst; [constructor|]. constructor; [|apply IH; exact S3].
  pose proof (canon_length_eq _ _ E) as L. split; [intros t Q1 Q2 Q3; rewrite L; eapply S1; eauto|]. intros Q ->. apply (S2 Q). destruct b; [reflexivity|discriminate].
Qed.
Lemma part_matches_canon w a b : canon a = canon b -> part_matches w a <-> part_matches w b.
Proof.
  assert (G : forall a b, canon a = canon b -> part_matches w a -> part_matches w b).
  { clear. intros a b E M. destruct M as [p|t p (l & r & C)|t p N H (r & C)|t p N H (l & C)|t p H1 H2 C].
    - apply pm_any.
    - apply pm_contains. exists l, r. congruence.
    - apply pm_starts; [assumption..|]. exists r. congruence.
    - apply pm_ends; [assumption..|]. exists l. congruence.
    - apply pm_equal; [assumption..|]. congruence. }
  intros E. split; apply G; [exact E|symmetry; exact E].
Qed.
Lemma alike_matches ws ps' ps : alike ps' ps -> name_matches ws ps' <-> name_matches ws ps.
Proof.
  intros F. revert ws. induction F as [|a b l l' E F IH]; intros ws; [tauto|]. split; intros H; inversion H as [|w ? ws' ? M1 M2]; subst; (constructor; [apply (part_matches_canon w a b E); exact M1|apply IH; exact M2]).
Qed.
Lemma path_text_inj ps : forall ps', Forall no_slash ps -> Forall no_slash ps' -> path_text ps = path_text ps' -> ps = ps'.
Proof.
  unfold path_text. intros ps' H H' E. inversion E as [E1]. clear E. revert ps' H' E1. induction ps as [|p ps IH]; intros [|p' ps'] H' E; inversion_clear H as [|? ? H1 H2].
  - reflexivity.
  - destruct p'; discriminate.
  - destruct p; discriminate.
  - inversion_clear H' as [|? ? H1' H2']. cbn [map concat] in E. rewrite <- !app_assoc in E.
    assert (G : p = p' /\ concat (map (fun p => p ++ [47]) ps) = concat (map (fun p => p ++ [47]) ps')).
    { clear - E H1 H1'. revert p' E H1'. induction p as [|x p IH]; intros [|y p'] E H1'; cbn [app] in E; inversion E; subst.
      - auto.
      - exfalso. apply H1'. left. reflexivity.
      - exfalso. apply H1. left. reflexivity.
      - destruct (IH ltac:(intros Q; apply H1; right; exact Q) p') as [-> Q]; [assumption|intros Q; apply H1'; right; exact Q|]. auto. }
    destruct G as [-> G]. f_equal. apply IH; assumption.
Qed.
Lemma path_text_last ps : ps <> [] -> last (path_text ps) 0 = 47.
Proof.
  intros NE. destruct (exists_last NE) as (l & p & ->). unfold path_text. rewrite map_app, concat_app. cbn [map concat]. rewrite app_nil_r, app_assoc.
  change (47 :: ?a ++ [47]) with ((47 :: a) ++ [47]). apply last_last.
Qed.

Lemma NoDup_map_eq {A B} (g : A -> B) l x y : NoDup (map g l) -> In x l -> In y l -> g x = g y -> x = y.
Proof.
  induction l as [|a l IH]; intros ND HX HY E; [destruct HX|]. cbn [map] in ND. inversion_clear ND as [|? ? N1 N2].
  destruct HX as [<-|HX]; destruct HY as [<-|HY]; [reflexivity| | |auto]; exfalso; apply N1; apply in_map_iff; [exists y|exists x]; auto.
Qed.

(** a record name the theorem covers: six parts of at most 128 characters, none of which the code gets wrong *)
Definition suits (ws : list (list Z)) (q : list Z) : Prop := exists ps, q = path_text ps /\ six_parts ps /\ short_parts ps /\ safe ws ps.

(** ** C47 for every history of the file.
    _partial: the pattern's "*text" parts are not longer than the parts they meet, no "**" meets an empty part, and no
    part is longer than 128 characters; false otherwise (below).  No type or time selection. *)
Theorem C47_select_partial c W ops s ws lo : usable c -> runs c W (new_file c) ops s -> locals_ok lo -> six_parts ws -> short_parts ws ->
  (forall o q, In o ops -> In q (names_of o) -> reads c s q None \/ suits ws q) ->
  exists l, zcatalogSelect c lo (Some (path_text ws)) false select_all s = OK l s /\ NoDup (map canon l) /\
    (forall n, In n l -> exists ps ct, n = path_text ps /\ name_matches ws ps /\ reads c s n (Some ct)) /\
    (forall ps ct, six_parts ps -> name_ok (path_text ps) -> reads c s (path_text ps) (Some ct) ->
       (In (canon (path_text ps)) (map canon l) <-> name_matches ws ps)).
Proof.
  intros U R LO H6 HS HQ. pose proof (proj1 (usable_wf c U)) as WF. destruct (runs_new c W U _ _ R) as (f & M & IV).
  pose proof IV as [(own & ch & blocks & RP & LV & DD & DM & DL) I2 I3]. destruct I3 as (ks & K1 & K2 & K3).
  destruct (parse_ok lo ws LO H6 HS) as (out & PW & WO).
  set (keep := chosen (l_junk lo) (l_pbuf lo) (l_sbuf lo) (Some (path_text ws)) (Some out) false select_all).
  set (kb := fun e : entry => match keep (e_path e) (fst (i8toi4 false (e_tc e))) (e_lw e) with Ok b => b | Undef => false end).
  (* every live entry has a name of the covered kind *)
  assert (NM : forall p ct, Live c ch p ct -> exists ps, p = path_text ps /\ six_parts ps /\ short_parts ps /\ safe ws ps).
  { intros p ct Q. pose proof (proj1 (LV _ _) Q) as Q1.
    destruct (mapped_names _ _ _ (key p) M) as [Q2|(o & Q2 & Q3)]; [congruence|exfalso; apply Q2; reflexivity|].
    destruct (HQ o (key p) Q2 Q3) as [N|(ps & E & P1 & P2 & P3)].
    - exfalso. assert (LK : Live c ch (key p) ct). { apply LV. rewrite key_idem. exact Q1. }
      destruct Q as (h & i & k & e & Hh & HE & HV & EK & _). pose proof (Dsk_eok _ _ _ _ _ _ _ _ _ _ (rp_dsk _ _ _ _ _ RP) Hh HE) as ((_ & EL & _) & _).
      destruct (rep_read c s own ch blocks (key p) ct WF RP) as (s1 & E1 & _); [|exact LK|].
      { rewrite <- EK. unfold zlen. rewrite key_length. unfold e_path. rewrite firstn_length. lia. }
      destruct N as (s2 & E2). cbn [exec] in E2. rewrite E1 in E2. discriminate.
    - assert (E' : canon p = canon (path_text ps)) by (rewrite <- E; change (canon p) with (key p); symmetry; apply key_idem).
      destruct (same_parts p ps E') as (ps' & -> & F). exists ps'. split; [reflexivity|]. split; [eapply alike_six; eauto|]. split; [eapply alike_short; eauto|eapply alike_safe; eauto]. }
  assert (KE : forall e ps, e_path e = path_text ps -> six_parts ps -> short_parts ps -> safe ws ps ->
     keep (e_path e) (fst (i8toi4 false (e_tc e))) (e_lw e) = Ok (kb e) /\ (kb e = true <-> name_matches ws ps)).
  { intros e ps EP P1 P2 P3. destruct (compare_ok lo ws ps out LO WO (proj1 H6) P1 P2 P3) as (b & CB & HB).
    assert (KK : keep (e_path e) (fst (i8toi4 false (e_tc e))) (e_lw e) = Ok b).
    { unfold keep, chosen. rewrite EP, cstr_c by (apply path_text_c, P1). cbn [bind]. rewrite CB. cbn [bind]. destruct b; reflexivity. }
    split; [unfold kb; rewrite KK; reflexivity|]. unfold kb. rewrite KK. exact HB. }
  destruct (rep_select keep kb c s own ch blocks WF RP) with (ls := h_numRecords (s_hdr s) + h_numRenames (s_hdr s) + h_numDeletes (s_hdr s)) as (vl & E & ND & V1 & V2).
  { intros h i a es Hh Hi. rewrite Forall_forall. intros e He EL. apply In_nth_error in He. destruct He as [k He].
    assert (HE : entry_at ch (h, i, k) = Some e) by (unfold entry_at; rewrite Hi; exact He).
    pose proof (Dsk_eok _ _ _ _ _ _ _ _ _ _ (rp_dsk _ _ _ _ _ RP) Hh HE) as EO. apply (liveb_live c h e EO) in EL.
    destruct (NM (e_path e) (e_ct e)) as (ps & EP & P1 & P2 & P3); [exists h, i, k, e; auto|]. eapply KE; eauto. }
  { exists ks. split; [intros p ct Q; apply LV in Q; apply K2; congruence|]. pose proof (dead_le_nonneg _ _ _ DL). lia. }
  assert (LE : forall e, In e vl -> Live c ch (e_path e) (e_ct e)) by (intros e He; destruct (V1 e He) as (h & i & k & Hh & HE & HV); exists h, i, k, e; auto).
  assert (EN : forall e, In e vl -> name_of e = e_path e).
  { intros e He. unfold name_of. apply fort_to_c_nb. destruct (NM _ _ (LE e He)) as (ps & -> & (P1 & _) & _). rewrite path_text_last; [lia|]. intros ->. discriminate. }
  exists (map name_of (filter kb vl)). split; [|split; [|split]].
  - unfold zcatalogSelect. rewrite PW. fold keep. cbv zeta. rewrite (bindM_OK _ _ _ _ _ (setH_same s (rp_hdr _ _ _ _ _ RP))).
    rewrite (rp_hdr _ _ _ _ _ RP). exact E.
  - rewrite map_map. rewrite (map_ext_in _ (fun e => key (e_path e))) by (intros e He; apply filter_In in He; rewrite EN by apply He; reflexivity).
    clear - ND. induction vl as [|e l IH]; [constructor|]. cbn [map filter] in *. inversion_clear ND as [|? ? N1 N2]. destruct (kb e); [|auto]. cbn [map]. constructor; [|auto].
    intros Q. apply N1. apply in_map_iff in Q. destruct Q as (x & X1 & X2). apply filter_In in X2. apply in_map_iff. exists x. split; [exact X1|apply X2].
  - intros n Hn. apply in_map_iff in Hn. destruct Hn as (e & <- & He). apply filter_In in He. destruct He as [He HK]. rewrite EN by exact He.
    destruct (NM _ _ (LE e He)) as (ps & EP & P1 & P2 & P3). exists ps, (e_ct e). split; [exact EP|]. split; [apply (KE e ps EP P1 P2 P3); exact HK|].
    destruct (rep_read c s own ch blocks (e_path e) (e_ct e) WF RP) as (s1 & E1 & _); [|apply LE, He|exists s1; cbn [exec]; rewrite E1; reflexivity].
    destruct (V1 e He) as (h & i & k & Hh & HE & HV). pose proof (Dsk_eok _ _ _ _ _ _ _ _ _ _ (rp_dsk _ _ _ _ _ RP) Hh HE) as ((_ & EL & _) & _).
    unfold e_path, zlen. rewrite firstn_length. lia.
  - intros ps ct H6p HP HR. apply (inv_reads_iff c W U s f) in HR; [|assumption..]. symmetry in HR. change (canon (path_text ps)) with (key (path_text ps)) in *.
    apply LV in HR. destruct HR as (h & i & k & e & Hh & HE & HV & EK & _). pose proof (V2 h i k e Hh HE HV) as He.
    destruct (NM _ _ (LE e He)) as (ps' & EP & P1 & P2 & P3). destruct (KE e ps' EP P1 P2 P3) as [_ KB].
    assert (AL : alike ps' ps).
    { destruct (same_parts (e_path e) ps EK) as (ps2 & E2 & F2). replace ps' with ps2; [exact F2|]. apply path_text_inj; [apply (alike_six ps2 ps F2 H6p)|apply P1|congruence]. }
    rewrite <- (alike_matches ws ps' ps AL), <- KB. rewrite map_map. split.
    + intros Q. apply in_map_iff in Q. destruct Q as (x & X1 & X2). apply filter_In in X2. destruct X2 as [X2 X3].
      rewrite EN in X1 by exact X2. change (canon (e_path x)) with (key (e_path x)) in X1.
      assert (x = e); [|congruence]. eapply NoDup_map_eq; eauto. congruence.
    + intros Q. apply in_map_iff. exists e. split; [rewrite EN by exact He; exact EK|]. apply filter_In. split; assumption.
Qed.
Print Assumptions C47_select_partial.
