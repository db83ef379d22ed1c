(** * Every call on a file with aliases answers as the specification says, and keeps the invariant. *)
From Coq Require Import ZArith List Lia Bool.
From Verif Require Import Base PackModel HashModel FileModel FileLemmas FileSpec FileHist AliasModel AliasSpec AliasProofs AliasLook AliasIns AliasLinks.
Import ListNotations.
Open Scope Z_scope.

Lemma Links_ext c m dir b b' ch : (forall k, recs b' k = recs b k) -> aka b' = aka b -> Links c m dir b ch -> Links c m dir b' ch.
Proof.
  intros HR HA LK. assert (AL : forall q, aliases b' q = aliases b q) by (intros q; unfold aliases; rewrite HA; reflexivity). constructor.
  - intros q v H. rewrite HR in H. apply (k_rec _ _ _ _ _ LK q v H).
  - intros a e. rewrite HR. apply LK.
  - apply LK.
  - intros q a. rewrite HR. apply LK.
  - intros q. rewrite AL. apply LK.
  - apply LK.
  - rewrite HA. apply LK.
  - intros x q. rewrite HA, HR. apply LK.
Qed.
Lemma inv_core c W s s' b b' : core s s' -> Inv c W s b -> (forall k, recs b' k = recs b k) -> aka b' = aka b -> (a_stat s' = 2 -> stale b' = true) -> Inv c W s' b'.
Proof.
  intros C (D & (ch & LK) & _) HR HA HS. split; [eapply Dir_core; eauto|]. split; [|exact HS]. exists ch. eapply Links_ext; eauto. eapply Links_core; eauto.
Qed.

(** Outcome of a call. *)
Definition good (c : dcfg) (W : Z) (o : aop) (s : ast) (b : book) : Prop := exists r s' b', aexec c o s = Some (r, s') /\ astep b o r b' /\ Inv c W s' b'.

Section HIST.
Variables (c : dcfg) (W : Z).

Lemma none_of m dir b ch k : Links c m dir b ch -> record_of b k = None -> recs b k = None /\ primary_of b k = None /\ (forall a e, E c m dir a e -> key (t_name e) = k -> ~ live e).
Proof.
  intros LK HR. destruct (kinds c _ _ _ _ LK k) as [v' a e n H1 H2 H3|q v' a e H1 H2 H3 H4 H5 H6 H7|H1 H2 H3].
  - destruct (record_of_rec b k v' H2 H1) as [Q1 Q2]. congruence.
  - destruct (record_of_alias b k q v' H1 H3) as [Q1 Q2]. congruence.
  - auto.
Qed.
Lemma alias_names m dir nx b ch q n h ia : Dir c W m dir nx -> Links c m dir b ch -> m ia = Inf n -> head_ok m q h (ch q) ->
  (h = 0 /\ ch q = []) \/
  (h <> 0 /\ exists L, aliases_from (Z.to_nat (nx + 1)) m ia h = Some (Some L) /\ map key L = aliases b q).
Proof.
  intros D LK MI [H|H]; [left; exact H|right]. split.
  { intros ->. assert (M0 : m 0 <> Free). { destruct (ch q); cbn in H; [destruct H as (n0 & Q & _); congruence|destruct H as (<- & e0 & Q & _); congruence]. } apply (k_low _ _ _ _ _ D) in M0. lia. }
  rewrite <- (k_aka _ _ _ _ _ LK q). pose proof (ch_short c W _ _ _ _ _ D LK q) as SH. revert h H SH. generalize (Z.to_nat (nx + 1)) as fuel.
  assert (HA : forall x, In x (ch q) -> exists ex, m x = Ent ex /\ t_len ex = zlen (t_name ex)).
  { intros x Hx. destruct (k_ch _ _ _ _ _ LK q x Hx) as (_ & ex & HE & HS). exists ex. split; [apply HE|]. apply (E_ok c W _ _ _ D _ _ HE). lia. }
  revert HA. generalize (ch q) as l. induction l as [|x l IH]; intros HA fuel h HC SH; (destruct fuel as [|fuel]; [cbn in SH; lia|]); cbn [chain_to aliases_from] in *.
  - destruct HC as (n0 & Q & _). rewrite Q. exists []. auto.
  - destruct HC as (-> & ex & Q1 & Q2 & Q3). rewrite Q1, Q2. change (2 =? 2) with true. cbn [negb].
    destruct (HA x (or_introl eq_refl)) as (ex' & M' & LN). assert (ex' = ex) by congruence. subst ex'.
    assert (NM : firstn (Z.to_nat (t_len ex)) (t_name ex) = t_name ex) by (rewrite LN; unfold zlen; rewrite Nat2Z.id; apply firstn_all). rewrite NM.
    assert (HH : nm m x = key (t_name ex)) by (unfold nm; rewrite Q1; reflexivity).
    destruct (Z.eqb_spec (t_info ex) ia) as [EQ|NE].
    + assert (l = []). { destruct l as [|y l]; [reflexivity|]. cbn in Q3. destruct Q3 as (Q3 & e2 & Q4 & _). congruence. } subst l. exists [t_name ex]. split; [reflexivity|]. cbn. rewrite HH. reflexivity.
    + destruct (IH (fun y Hy => HA y (or_intror Hy)) fuel (t_info ex) Q3 ltac:(cbn in SH; lia)) as (L & L1 & L2). rewrite L1. cbn. exists (t_name ex :: L). split; [reflexivity|]. cbn. rewrite HH, L2. reflexivity.
Qed.
Lemma aliases_of_spec s b ch q v a e n s' : Dir c W (a_mem s) (a_dir s) (a_next s) -> Links c (a_mem s) (a_dir s) b ch -> core s s' -> on_record c s ch q v a e n s' ->
  exists L, aliases_of n s' = Val L s' /\ map key L = aliases b q.
Proof.
  intros D LK (C1 & C2 & C3) ((R1 & R2 & R3 & R4 & R5 & R6 & R7 & R8 & R9) & S1 & S2 & S3). unfold aliases_of.
  destruct (alias_names _ _ _ _ _ q n (n_head n) (t_info e) D LK R4 R9) as [[H1 H2]|(H1 & L & H2 & H3)].
  - rewrite H1. cbn. exists []. split; [reflexivity|]. rewrite <- (k_aka _ _ _ _ _ LK q), H2. reflexivity.
  - apply Z.eqb_neq in H1. rewrite H1. unfold fuel_of. rewrite C1, C3, S3, H2. eauto.
Qed.

Ltac start := intros (D & (ch & LK) & HST); unfold good; cbn [aexec]; unfold arun.
Ltac keep C := eapply inv_core; [exact C|split; [eassumption|split; [eexists; eassumption|eassumption]]|reflexivity|reflexivity|].

Lemma o_read p s b : Inv c W s b -> good c W (ARead p) s b.
Proof.
  start. unfold read, bindP, retP. destruct (record_of b (key p)) as [v|] eqn:HR.
  - destruct (read_found c W s b ch D LK p v 0 HR (or_introl eq_refl)) as (a & e & n & s' & H1 & C & (R & S1 & S2 & S3)). rewrite H1. cbn [option_map].
    exists (AData v), s', (clean b). split. { assert (EV : v = (n_type n, n_data n)) by (apply R). rewrite EV. reflexivity. } split; [apply as_read; exact HR|]. keep C. lia.
  - destruct (read_missing c W s b ch D LK p 0 HR (or_introl eq_refl)) as (s' & C & [(H1 & _ & S1)|(H1 & S1)]); rewrite H1.
    + exists AMissing, s', b. split; [reflexivity|]. split; [apply as_read_none; exact HR|]. keep C. congruence.
    + exists AFail, s', b. split; [reflexivity|]. split; [eapply as_stale; [auto|exact HR|left; reflexivity]|]. keep C. auto.
Qed.
Lemma o_number p s b : Inv c W s b -> good c W (ANumber p) s b.
Proof.
  start. unfold alias_number, bindP, retP. destruct (record_of b (key p)) as [v|] eqn:HR.
  - destruct (read_found c W s b ch D LK p v 0 HR (or_introl eq_refl)) as (a & e & n & s' & H1 & C & OR). rewrite H1.
    destruct (aliases_of_spec s b ch _ v a e n s' D LK C OR) as (L & L1 & L2). rewrite L1. destruct OR as (R & S1 & S2 & S3).
    exists (ACount (Z.of_nat (length L))), s', (clean b). split; [reflexivity|]. split; [|keep C; lia]. rewrite <- (map_length key L), L2. apply (as_number b p v HR).
  - destruct (read_missing c W s b ch D LK p 0 HR (or_introl eq_refl)) as (s' & C & [(H1 & _ & S1)|(H1 & S1)]); rewrite H1.
    + exists AMissing, s', b. split; [reflexivity|]. split; [apply as_number_none; exact HR|]. keep C. congruence.
    + exists AFail, s', b. split; [reflexivity|]. split; [eapply as_stale; [auto|exact HR|cbn; tauto]|]. keep C. auto.
Qed.
Lemma o_list p s b : Inv c W s b -> good c W (AList p) s b.
Proof.
  start. unfold alias_list, bindP, retP. destruct (record_of b (key p)) as [v|] eqn:HR.
  - destruct (read_found c W s b ch D LK p v 1 HR) as (a & e & n & s' & H1 & C & OR); [cbn; tauto|]. rewrite H1.
    destruct (aliases_of_spec s b ch _ v a e n s' D LK C OR) as (L & L1 & L2). rewrite L1. destruct OR as (R & S1 & S2 & S3).
    exists (ANames (n_name n :: L)), s', (clean b). split; [reflexivity|]. split; [|keep C; lia]. eapply as_list; [exact HR|]. change canon with key. cbn [map]. rewrite L2. f_equal. apply R.
  - destruct (read_missing c W s b ch D LK p 1 HR) as (s' & C & [(H1 & _ & S1)|(H1 & S1)]); [cbn; tauto| |]; rewrite H1.
    + exists AMissing, s', b. split; [reflexivity|]. split; [apply as_list_none; exact HR|]. keep C. congruence.
    + exists AFail, s', b. split; [reflexivity|]. split; [eapply as_stale; [auto|exact HR|cbn; tauto]|]. keep C. auto.
Qed.
Lemma looked_rec b k v : primary_of b k = None -> recs b k = Some v -> stale (looked k b) = false.
Proof. intros H1 H2. cbn. rewrite H1, H2. reflexivity. Qed.
Lemma looked_alias b k q : primary_of b k = Some q -> stale (looked k b) = true.
Proof. intros H1. cbn. rewrite H1. reflexivity. Qed.
Lemma o_primary p s b : Inv c W s b -> good c W (APrimary p) s b.
Proof.
  start. destruct (kinds c _ _ _ _ LK (key p)) as [v' a e n H1 H2 H3|q v' a e H1 H2 H3 H4 H5 H6 H7|H1 H2 H3].
  - destruct (primary_rec c W s ch D p v' a e n H3) as (s' & Q1 & C & S). rewrite Q1. destruct (record_of_rec b _ _ H2 H1) as [X1 X2].
    exists (AName p), s', (looked (key p) b). split; [reflexivity|]. split; [eapply as_primary; eauto|]. keep C. lia.
  - destruct (primary_alias c W s b ch D LK p q a e H4 H5 H6 H7) as (path & s' & Q1 & C & S & K). rewrite Q1. destruct (record_of_alias b _ _ _ H1 H3) as [X1 X2].
    exists (AName path), s', (looked (key p) b). split; [reflexivity|]. split; [eapply as_primary; [exact X1|]; change canon with key; congruence|]. keep C. intros _. eapply looked_alias; eauto.
  - destruct (primary_none c W s D p H3) as (s' & Q1 & C & S). rewrite Q1. exists AFail, s', b. split; [reflexivity|]. split; [apply as_primary_none; unfold record_of, resolve; change canon with key; rewrite H2; exact H1|]. keep C. intros Q. apply HST. destruct S; congruence.
Qed.
Lemma o_check p s b : Inv c W s b -> good c W (ACheck p) s b.
Proof.
  start. destruct (kinds c _ _ _ _ LK (key p)) as [v' a e n H1 H2 H3|q v' a e H1 H2 H3 H4 H5 H6 H7|H1 H2 H3].
  - destruct (check_rec c W s ch D p v' a e n 0 H3 (or_introl eq_refl)) as (s' & Q1 & C & _ & S & _). rewrite Q1. destruct (record_of_rec b _ _ H2 H1) as [X1 X2].
    exists AFound, s', (looked (key p) b). split; [reflexivity|]. split; [eapply as_check; eauto|]. keep C. lia.
  - destruct (check_alias c W s b ch D LK p q a e 0 H4 H5 H6 H7 (or_introl eq_refl)) as (s' & Q1 & C & _ & S & _). rewrite Q1. destruct (record_of_alias b _ _ _ H1 H3) as [X1 X2].
    exists AFound, s', (looked (key p) b). split; [reflexivity|]. split; [eapply as_check; eauto|]. keep C. intros _. eapply looked_alias; eauto.
  - destruct (check_none c W s D p 0 H3 (or_introl eq_refl)) as (s' & Q1 & C & _ & S). rewrite Q1. exists AMissing, s', b. split; [reflexivity|]. split; [apply as_check_none; unfold record_of, resolve; change canon with key; rewrite H2; exact H1|]. keep C. intros Q. apply HST. destruct S; congruence.
Qed.
Lemma o_reopen s b : Inv c W s b -> good c W AReopen s b.
Proof.
  start. exists ADone, (reopened s), (clean b). split; [reflexivity|]. split; [apply as_reopen|]. keep (core_refl s). cbn. lia.
Qed.

(** ** Writing *)
Lemma free_next m dir nx : Dir c W m dir nx -> m nx = Free.
Proof. intros D. destruct (m nx) eqn:Q; [reflexivity| |]; assert (0 < nx < nx) by (apply (k_low _ _ _ _ _ D); congruence); lia. Qed.

Lemma Dir_info m dir nx z n : Dir c W m dir nx -> (forall e, m z <> Ent e) -> 0 < z < nx -> Dir c W (upd m z (Inf n)) dir nx.
Proof.
  intros D HZ HB. eapply (Dir_map c W m); [exact D| |].
  - intros x Hx. destruct (Z.eq_dec x z) as [->|N]; [exact HB|]. rewrite upd_ne in Hx by exact N. apply (k_low _ _ _ _ _ D). exact Hx.
  - intros t x ex Hx Mx. exists ex. split; [rewrite upd_ne; [exact Mx|]; intros ->; eapply HZ; eauto|]. split; [reflexivity|]. split; [|auto]. eapply (E_ok c W _ _ _ D x). eapply dir_E; eauto.
Qed.
Lemma Dir_tinfo m dir nx z e i : Dir c W m dir nx -> E c m dir z e -> Dir c W (upd m z (Ent (with_tinfo i e))) dir nx.
Proof.
  intros D HE. eapply (Dir_map c W m); [exact D| |].
  - intros x Hx. destruct (Z.eq_dec x z) as [->|N]; [apply (k_low _ _ _ _ _ D); destruct HE; congruence|]. rewrite upd_ne in Hx by exact N. apply (k_low _ _ _ _ _ D). exact Hx.
  - intros t x ex Hx Mx. assert (OK : entry_ok c W ex) by (eapply (E_ok c W _ _ _ D x); eapply dir_E; eauto). destruct (Z.eq_dec x z) as [->|N].
    + assert (ex = e) by (destruct HE; congruence). subst ex. rewrite upd_eq. exists (with_tinfo i e). split; [reflexivity|]. split; [reflexivity|]. split; [exact OK|]. split; intros H; [exact H|left; exact H].
    + rewrite upd_ne by exact N. exists ex. split; [exact Mx|]. split; [reflexivity|]. split; [exact OK|]. auto.
Qed.
Lemma words_of p : name_words p = numberLongsInBytes (zlen p).
Proof. rewrite nlib by (unfold zlen; lia). reflexivity. Qed.

Lemma o_write p t d s b : W <= name_words p -> Inv c W s b -> good c W (AWrite p t d) s b.
Proof.
  intros HW. start. unfold write, bindP, getP. destruct (record_of b (key p)) as [v|] eqn:HR.
  - destruct (read_found c W s b ch D LK p v 0 HR (or_introl eq_refl)) as (a & e & n & s1 & H1 & C & (R & S1 & S2 & S3)). rewrite H1.
    assert (EV : v = (n_type n, n_data n)) by (apply R). pose proof (Dir_core c W _ _ C D) as D1. pose proof (Links_core c _ _ _ _ C LK) as LK1. pose proof (Rec_core c _ _ _ _ _ _ _ _ C R) as R1.
    destruct (type_compatible (n_type n) t) eqn:TC; cbn [negb].
    + apply family_spec in TC. unfold modP. cbn [set_stat a_info a_mem a_bin a_next a_dir]. destruct (n_room n <? zlen d) eqn:RM.
      * unfold put_info, put_entry, modP. cbn [a_mem set_mem a_dir a_next a_info a_bin]. rewrite S2, S3.
        pose proof (own_ent _ _ _ _ _ _ _ _ _ R1) as HE. pose proof (own_inf _ _ _ _ _ _ _ _ _ R1) as MI.
        assert (N1 : (a =? t_info e) = false) by (apply Z.eqb_neq; intros Q; destruct HE; congruence). rewrite N1. change (a_mem (set_stat 1 s1)) with (a_mem s1). rewrite (proj2 HE).
        set (n1 := with_istatus 10 n). set (n2 := mkinf 1 (n_hash n) (n_name n) (n_head n) t (Z.max (zlen d) (d_grow c (zlen d))) d).
        eexists ADone, _, _. split; [reflexivity|]. split; [eapply (as_write b p t d (n_type n) (n_data n)); [change canon with key; congruence|exact TC]|].
        split; [|split].
        -- cbn [set_mem a_mem a_dir a_next]. change (Dir c W (upd (upd (upd (a_mem s1) (t_info e) (Inf n1)) a (Ent (with_tinfo (a_next s1) e))) (a_next s1) (Inf n2)) (a_dir s1) (a_next s1 + 1)).
           assert (NX : a_mem s1 (a_next s1) = Free) by (eapply free_next; eauto). pose proof (k_nx _ _ _ _ _ D1).
           apply Dir_info; [eapply (Dir_tinfo _ _ _ a e); [apply (Dir_info (a_mem s1)); [eapply Dir_more; [|exact D1]; lia|congruence|]|]| |lia].
           ++ assert (0 < t_info e < a_next s1) by (apply (k_low _ _ _ _ _ D1); congruence). lia.
           ++ apply E_other; [congruence|discriminate|exact HE].
           ++ intros e'. rewrite upd_ne by (destruct HE; congruence). rewrite upd_ne by congruence. congruence.
        -- exists (ch_set ch (resolve b (key p)) (ch (resolve b (key p)))). cbn [set_mem a_mem a_dir a_next].
           eapply Links_ext; [| |eapply (L_move c W (a_mem s1) (a_dir s1) (a_next s1) b ch D1 LK1 (resolve b (key p)) v a e n R1 n2 n1)]; try reflexivity. eapply free_next; eauto.
        -- cbn. lia.
      * unfold put_info, modP. cbn [a_mem set_mem a_dir a_next a_info a_bin set_stat]. rewrite S3.
        set (n2 := mkinf (n_status n) (n_hash n) (n_name n) (n_head n) t (n_room n) d).
        eexists ADone, _, _. split; [reflexivity|]. split; [eapply (as_write b p t d (n_type n) (n_data n)); [change canon with key; congruence|exact TC]|].
        pose proof (own_inf _ _ _ _ _ _ _ _ _ R1) as MI. split; [|split].
        -- cbn [set_mem a_mem a_dir a_next set_stat]. change (Dir c W (upd (a_mem s1) (t_info e) (Inf n2)) (a_dir s1) (a_next s1)). apply Dir_info; [exact D1|congruence|apply (k_low _ _ _ _ _ D1); congruence].
        -- exists (ch_set ch (resolve b (key p)) (ch (resolve b (key p)))). cbn [set_mem a_mem a_dir a_next set_stat].
           eapply Links_ext; [| |eapply (L_data c W (a_mem s1) (a_dir s1) (a_next s1) b ch D1 LK1 (resolve b (key p)) v a e n R1 n2)]; reflexivity.
        -- cbn. lia.
    + exists AFail, s1, (clean b). split; [reflexivity|]. split; [eapply (as_write_type b p t d (n_type n) (n_data n)); [change canon with key; congruence|rewrite <- family_spec; congruence]|]. keep C. lia.
  - destruct (none_of _ _ _ _ _ LK HR) as (RN & PN & NL).
    destruct (read_missing c W s b ch D LK p 0 HR (or_introl eq_refl)) as (s1 & C & [(H1 & AT & S1)|(H1 & S1)]); rewrite H1.
    + unfold modP. set (s2 := mka (a_mem s1) (a_dir s1) (a_next s1 + 1) (a_stat s1) (a_bin s1) (a_info s1) (a_hash s1) (a_len s1) (a_table s1)).
      pose proof (Dir_core c W _ _ C D) as D1. pose proof (Links_core c _ _ _ _ C LK) as LK1. assert (NX : a_mem s1 (a_next s1) = Free) by (eapply free_next; eauto). pose proof (k_nx _ _ _ _ _ D1).
      assert (D2 : Dir c W (a_mem s2) (a_dir s2) (a_next s2)) by (eapply Dir_more; [|exact D1]; cbn; lia).
      destruct C as (C1 & C2 & C3).
      destruct (bin_update_spec c W p (a_next s1) 1 s2 D2 AT) as (z & ez & s3 & B1 & B2 & B3 & B4 & B5 & B6 & B7 & B8 & B9 & B10 & B11 & B12 & B13 & B14);
        [cbn; rewrite C1, C2; exact NL|rewrite <- words_of; exact HW|left; reflexivity|].
      rewrite B1. unfold put_info, modP. set (n' := mkinf 1 (a_hash s3) p 0 t (Z.max (zlen d) (d_grow c (zlen d))) d).
      assert (ZN : a_next s1 <> z). { intros Q. destruct B10 as [[_ B10]|(e0 & (_ & B10) & _)]; [cbn in B10; lia|cbn in B10; congruence]. }
      eexists ADone, _, _. split; [reflexivity|]. split; [apply as_write_new; exact HR|]. cbn [a_mem a_next a_dir a_hash s2] in B2, B8, B9, B10, B14. subst p. split; [|split].
      * cbn [set_mem a_mem a_dir a_next]. change (Dir c W (upd (a_mem s3) (a_next s1) (Inf n')) (a_dir s3) (a_next s3)). apply Dir_info; [exact B6| |lia]. intros e'. rewrite B2, upd_ne by exact ZN. congruence.
      * exists (ch_set ch (key (t_name ez)) []). cbn [set_mem a_mem a_dir]. change (Links c (upd (a_mem s3) (a_next s1) (Inf n')) (a_dir s3) (put_rec (key (t_name ez)) (Some (n_type n', n_data n')) b) (ch_set ch (key (t_name ez)) [])).
        rewrite B2. eapply (L_new c W (a_mem s1) (a_dir s1) (a_next s1)); eauto; [destruct B10 as [[B10 _]|B10]; auto|]. cbn. rewrite B14. apply AT.
      * cbn. rewrite B13. cbn. congruence.
    + exists AFail, s1, b. split; [reflexivity|]. split; [apply as_stale_write; [auto|exact HR]|]. keep C. auto.
Qed.

(** ** A new alias *)
Lemma o_add p x s b : W <= name_words x -> Inv c W s b -> good c W (AAdd p x) s b.
Proof.
  intros HW. intros (D0 & (ch & LK0) & HST0); unfold good; cbn [aexec]; unfold arun. unfold alias_add, bindP, modP, getP.
  set (s0 := forget s). assert (D : Dir c W (a_mem s0) (a_dir s0) (a_next s0)) by exact D0. assert (LK : Links c (a_mem s0) (a_dir s0) b ch) by exact LK0. assert (HST : a_stat s0 = 2 -> stale b = true) by exact HST0.
  destruct (record_of b (key p)) as [v|] eqn:HR.
  - destruct (read_found c W s0 b ch D LK p v 1 HR) as (a & e & n & s1 & H1 & C & (R & S1 & S2 & S3)); [cbn; tauto|]. rewrite H1.
    pose proof (Dir_core c W _ _ C D) as D1. pose proof (Links_core c _ _ _ _ C LK) as LK1. pose proof (Rec_core c _ _ _ _ _ _ _ _ C R) as R1.
    destruct (record_of b (key x)) as [w|] eqn:HX.
    + destruct (kinds c _ _ _ _ LK1 (key x)) as [v' a' e' n' K1 K2 K3|q' v' a' e' K1 K2 K3 K4 K5 K6 K7|K1 K2 K3].
      * destruct (check_rec c W s1 ch D1 x v' a' e' n' 0 K3 (or_introl eq_refl)) as (s2 & Q1 & C2 & _ & S & _). rewrite Q1. cbn.
        exists AFail, s2, (looked (key x) (clean b)). split; [reflexivity|]. split; [eapply as_add_used; eauto|]. eapply inv_core; [exact C2|split; [exact D1|split; [exists ch; exact LK1|intros Q; rewrite S1 in Q; discriminate]]|reflexivity|reflexivity|]. lia.
      * destruct (check_alias c W s1 b ch D1 LK1 x q' a' e' 0 K4 K5 K6 K7 (or_introl eq_refl)) as (s2 & Q1 & C2 & _ & S & _). rewrite Q1. cbn.
        exists AFail, s2, (looked (key x) (clean b)). split; [reflexivity|]. split; [eapply as_add_used; eauto|]. eapply inv_core; [exact C2|split; [exact D1|split; [exists ch; exact LK1|intros Q; rewrite S1 in Q; discriminate]]|reflexivity|reflexivity|].
        intros _. cbn. assert (Q : primary_of (clean b) (key x) = Some q') by exact K1. rewrite Q. reflexivity.
      * unfold record_of, resolve in HX. rewrite K2 in HX. congruence.
    + destruct (none_of _ _ _ _ _ LK1 HX) as (RN & PN & NL).
      destruct (check_none c W s1 D1 x 0 NL (or_introl eq_refl)) as (s2 & Q1 & C2 & AT & S). rewrite Q1.
      pose proof (Dir_core c W _ _ C2 D1) as D2. pose proof (Links_core c _ _ _ _ C2 LK1) as LK2. pose proof (Rec_core c _ _ _ _ _ _ _ _ C2 R1) as R2.
      destruct (bin_update_spec c W x (if n_head n =? 0 then a_info s1 else n_head n) 2 s2 D2 AT) as (z & ez & s3 & B1 & B2 & B3 & B4 & B5 & B6 & B7 & B8 & B9 & B10 & B11 & B12 & B13 & B14);
        [destruct C2 as (M1 & M2 & _); rewrite M1, M2; exact NL|rewrite <- words_of; exact HW|right; reflexivity|].
      rewrite B1. unfold put_info, modP. rewrite S3 in *. rewrite B11. pose proof (own_inf _ _ _ _ _ _ _ _ _ R2) as MI.
      assert (ZN : t_info e <> z). { intros Q. destruct B10 as [[B10 _]|(e0 & (_ & B10) & _)]; congruence. }
      eexists ADone, _, _. split; [reflexivity|]. split; [eapply as_add; eauto|]. subst x. split; [|split].
      * cbn [forget set_mem a_mem a_dir a_next]. change (Dir c W (upd (a_mem s3) (t_info e) (Inf (with_head z n))) (a_dir s3) (a_next s3)). apply Dir_info; [exact B6| |].
        -- intros e'. rewrite B2, upd_ne by exact ZN. congruence.
        -- assert (0 < t_info e < a_next s2) by (apply (k_low _ _ _ _ _ D2); congruence). lia.
      * exists (ch_set ch (resolve b (key p)) (z :: ch (resolve b (key p)))). cbn [forget set_mem a_mem a_dir].
        change (Links c (upd (a_mem s3) (t_info e) (Inf (with_head z n))) (a_dir s3) (clean (add_alias (key (t_name ez)) (resolve b (key p)) b)) (ch_set ch (resolve b (key p)) (z :: ch (resolve b (key p))))).
        rewrite B2. eapply Links_ext; [| |eapply (L_add c W (a_mem s2) (a_dir s2) (a_next s2) b ch D2 LK2 (resolve b (key p)) v a e n R2 (a_dir s3) z ez)]; eauto; try reflexivity. destruct B10 as [[B10 _]|B10]; auto.
      * cbn. rewrite B13. intros Q. exfalso. destruct S as [S|S]; congruence.
  - destruct (read_missing c W s0 b ch D LK p 1 HR) as (s1 & C & [(H1 & _ & S1)|(H1 & S1)]); [cbn; tauto| |]; rewrite H1.
    + exists AFail, s1, b. split; [reflexivity|]. split; [apply as_add_none; exact HR|]. keep C. congruence.
    + exists AFail, s1, b. split; [reflexivity|]. split; [apply as_add_none; exact HR|]. keep C. auto.
Qed.
End HIST.
