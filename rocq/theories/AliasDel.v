(** * zaliasRemove, zaliasRemoveAll and zdelete. *)
From Coq Require Import ZArith List Lia Bool.
From Verif Require Import Base PackModel HashModel FileModel FileLemmas FileSpec FileHist AliasModel AliasSpec AliasProofs AliasLook AliasIns AliasLinks AliasHist.
Import ListNotations.
Open Scope Z_scope.

(** ** Unlinking one entry *)
Lemma last_cons {A} (k : list A) : forall y d, last (y :: k) d = last k y.
Proof. induction k as [|w k IH]; intros y d; [reflexivity|]. change (last (y :: w :: k) d) with (last (w :: k) d). rewrite !IH. reflexivity. Qed.
Lemma unlink_spec q target et : forall k l2 fuel prev a s, chain_to (a_mem s) q a (k ++ target :: l2) -> ~ In target k -> (length k < fuel)%nat -> a_mem s target = Ent et ->
  unlink fuel target prev a s = (put_entry target dead_alias ;;~ put_entry (last k prev) (with_tinfo (t_info et))) s.
Proof.
  induction k as [|y k IH]; intros l2 fuel prev a s HC HN HF HT; (destruct fuel as [|fuel]; [cbn in HF; lia|]); cbn [app chain_to] in HC; cbn [unlink].
  - destruct HC as (-> & e & M & S & _). assert (e = et) by congruence. subst e. rewrite M, S. cbn [negb]. change (2 =? 2) with true. cbn [negb]. rewrite Z.eqb_refl. reflexivity.
  - destruct HC as (-> & e & M & S & HC). rewrite M, S. change (2 =? 2) with true. cbn [negb].
    assert (N : (y =? target) = false) by (apply Z.eqb_neq; intros ->; apply HN; left; reflexivity). rewrite N.
    rewrite (IH l2 fuel y (t_info e) s HC); [|intros Q; apply HN; right; exact Q|cbn in HF; lia|exact HT]. f_equal.
    rewrite last_cons. reflexivity.
Qed.
(** The chain without [target]. *)
Lemma chain_unlink m q target et l2 prev ep : forall l1 a, chain_to m q a (l1 ++ prev :: target :: l2) -> NoDup (l1 ++ prev :: target :: l2) -> m target = Ent et -> m prev = Ent ep ->
  chain_to (upd (upd m target (Ent (dead_alias et))) prev (Ent (with_tinfo (t_info et) ep))) q a (l1 ++ prev :: l2).
Proof.
  intros l1 a HC ND MT MP. set (m' := upd _ prev _).
  assert (PT : prev <> target). { apply NoDup_remove_2 in ND. intros ->. apply ND. apply in_or_app. right. left. reflexivity. }
  assert (KP : kept m m').
  { intros z n Hz. exists n. split; [|reflexivity]. unfold m'. rewrite !upd_ne by congruence. exact Hz. }
  revert a HC. induction l1 as [|y l1 IH]; intros a HC; cbn [app chain_to] in *.
  - destruct HC as (-> & e & M & S & (Q & e' & M' & S' & HC)). assert (e = ep) by congruence. assert (e' = et) by congruence. subst e e'. split; [reflexivity|].
    exists (with_tinfo (t_info et) ep). split; [unfold m'; apply upd_eq|]. split; [exact S|]. cbn [t_info with_tinfo]. eapply chain_frame; [exact KP| |exact HC].
    intros x e Hx Mx. unfold m'. inversion ND as [|? ? N1 N2]; subst. inversion N2 as [|? ? N3 N4]; subst. rewrite !upd_ne; [exact Mx| |]; intros ->; [contradiction|apply N1; right; exact Hx].
  - destruct HC as (-> & e & M & S & HC). inversion ND as [|? ? N1 N2]; subst. split; [reflexivity|]. exists e. split; [|split; [exact S|apply IH; assumption]].
    unfold m'. rewrite !upd_ne; [exact M| |]; intros ->; apply N1; apply in_or_app; right; [right; left; reflexivity|left; reflexivity].
Qed.

(** ** Marking all *)
Lemma kill_spec q ia : forall l fuel a k s, chain_to (a_mem s) q a l -> NoDup l -> (length l < fuel)%nat -> (exists n, a_mem s ia = Inf n) ->
  exists s', kill_all fuel ia a k s = Val (k + Z.of_nat (length l)) s' /\ a_dir s' = a_dir s /\ a_next s' = a_next s /\ a_stat s' = a_stat s /\
    (forall x, ~ In x l -> a_mem s' x = a_mem s x) /\ (forall x e, In x l -> a_mem s x = Ent e -> a_mem s' x = Ent (dead_alias e)).
Proof.
  induction l as [|y l IH]; intros fuel a k s HC ND HF HI; (destruct fuel as [|fuel]; [cbn in HF; lia|]); cbn [chain_to] in HC; cbn [kill_all].
  - destruct HC as (n & M & _). rewrite M. exists s. rewrite Z.add_0_r. repeat split; auto. intros x e [].
  - destruct HC as (-> & e & M & S & HC). rewrite M, S. change (2 =? 2) with true. cbn [negb]. unfold bindP at 1. unfold put_entry. rewrite M.
    inversion ND as [|? ? N1 N2]; subst. set (s1 := set_mem y (Ent (dead_alias e)) s).
    assert (MS : forall x, x <> y -> a_mem s1 x = a_mem s x) by (intros x N; cbn; apply Z.eqb_neq in N; rewrite N; reflexivity).
    assert (MY : a_mem s1 y = Ent (dead_alias e)) by (cbn; rewrite Z.eqb_refl; reflexivity).
    destruct (Z.eqb_spec (t_info e) ia) as [EQ|NE].
    + assert (l = []). { destruct l as [|w l]; [reflexivity|]. cbn in HC. destruct HC as (HC & e2 & Q & _). destruct HI as (n & HI). congruence. } subst l.
      unfold retP. exists s1. split; [f_equal; cbn; lia|]. repeat split; auto.
      * intros x Hx. apply MS. intros ->. apply Hx. left. reflexivity.
      * intros x ex [<-|[]] Mx. rewrite MY. congruence.
    + destruct (IH fuel (t_info e) (k + 1) s1) as (s' & H1 & H2 & H3 & H4 & H5 & H6).
      * eapply (chain_frame (a_mem s)); [| |exact HC].
        -- intros z n Hz. exists n. split; [|reflexivity]. rewrite MS; [exact Hz|]. intros ->. congruence.
        -- intros x ex Hx Mx. rewrite MS; [exact Mx|]. intros ->. contradiction.
      * exact N2.
      * cbn in HF. lia.
      * destruct HI as (n & HI). exists n. rewrite MS; [exact HI|]. intros ->. congruence.
      * exists s'. split; [rewrite H1; f_equal; cbn [length]; lia|]. split; [exact H2|]. split; [exact H3|]. split; [exact H4|]. split.
        -- intros x Hx. rewrite H5; [apply MS; intros ->; apply Hx; left; reflexivity|intros Q; apply Hx; right; exact Q].
        -- intros x ex [<-|Hx] Mx; [rewrite H5 by exact N1; rewrite MY; congruence|]. apply H6; [exact Hx|]. rewrite MS; [exact Mx|]. intros ->. contradiction.
Qed.

(** ** The books *)
Lemma drop_alias_aliases b p q : aliases (drop_alias p b) q = filter (fun x => negb (same x p)) (aliases b q).
Proof.
  unfold aliases, drop_alias. cbn [aka]. induction (aka b) as [|[x r] l IH]; cbn [filter map fst snd]; [reflexivity|].
  destruct (same x p) eqn:Q1; destruct (same r q) eqn:Q2; cbn [negb filter map fst snd]; try rewrite Q2; cbn [map fst]; rewrite ?Q1; cbn [negb filter]; rewrite ?Q1; cbn [negb]; rewrite ?IH; reflexivity.
Qed.
Lemma drop_aliases_aliases b p q : aliases (drop_aliases p b) q = if same q p then [] else aliases b q.
Proof.
  unfold aliases, drop_aliases. cbn [aka]. induction (aka b) as [|[x r] l IH]; cbn [filter map fst snd]; [destruct (same q p); reflexivity|].
  destruct (same r p) eqn:Q1; destruct (same r q) eqn:Q2; cbn [negb filter map fst snd]; try rewrite Q2; cbn [map fst]; rewrite ?IH; try reflexivity.
  - apply same_true in Q1. apply same_true in Q2. subst. rewrite same_refl. reflexivity.
  - destruct (same q p) eqn:Q3; [|reflexivity]. apply same_true in Q2, Q3. subst. rewrite same_refl in Q1. discriminate.
Qed.
Lemma filter_sub {A} (f : A -> bool) l x : In x (filter f l) -> In x l.
Proof. intros H. apply filter_In in H. apply H. Qed.
Lemma filter_id {A} (f : A -> bool) l : (forall x, In x l -> f x = true) -> filter f l = l.
Proof. induction l as [|x l IH]; intros H; cbn; [reflexivity|]. rewrite (H x (or_introl eq_refl)), IH; [reflexivity|]. intros y Hy. apply H. right. exact Hy. Qed.

Section HIST.
Variables (c : dcfg) (W : Z).

Ltac keep C := eapply inv_core; [exact C|split; [eassumption|split; [eexists; eassumption|eassumption]]|reflexivity|reflexivity|].

Lemma head_nz m dir nx q h l : Dir c W m dir nx -> chain_to m q h l -> h <> 0.
Proof.
  intros D H ->. assert (M0 : m 0 <> Free). { destruct l; cbn in H; [destruct H as (n0 & Q & _); congruence|destruct H as (<- & e0 & Q & _); congruence]. } apply (k_low _ _ _ _ _ D) in M0. lia.
Qed.

(** Links after one alias is gone. *)
Lemma L_remove m dir nx b ch q v a e n p x ex l1 l2 m' h : Dir c W m dir nx -> Links c m dir b ch -> Rec c m dir ch q v a e n ->
  ch q = l1 ++ x :: l2 -> E c m dir x ex -> key (t_name ex) = p ->
  m' (t_info e) = Inf (with_head h n) -> m' x = Ent (dead_alias ex) ->
  (forall y ey, In y (l1 ++ l2) -> m y = Ent ey -> exists i, m' y = Ent (with_tinfo i ey)) ->
  (forall y, y <> t_info e -> ~ In y (ch q) -> m' y = m y) -> head_ok m' q h (l1 ++ l2) ->
  Links c m' dir (clean (drop_alias p b)) (ch_set ch q (l1 ++ l2)) /\ Dir c W m' dir nx.
Proof.
  intros D LK R HC HE HK MI MX ML MO HH.
  pose proof (ch_nodup c _ _ _ _ LK q) as ND. rewrite HC in ND. pose proof (NoDup_remove_2 _ _ _ ND) as NX.
  assert (NMX : nm m x = p) by (rewrite (nm_E c m dir x ex HE); exact HK).
  assert (NDM : NoDup (map (nm m) (ch q))) by (rewrite (k_aka _ _ _ _ _ LK); apply map_filter_nodup, (k_ndf _ _ _ _ _ LK)).
  assert (NMO : forall y, In y (l1 ++ l2) -> nm m y <> p).
  { intros y Hy Q. rewrite HC, map_app in NDM. cbn in NDM. apply NoDup_remove_2 in NDM. apply NDM. rewrite <- map_app, NMX, <- Q. apply in_map. exact Hy. }
  eapply (L_less c W m dir nx b ch D LK q v a e n R m' h (l1 ++ l2)); auto.
  - intros y Hy. rewrite HC. apply in_or_app. apply in_app_or in Hy. destruct Hy; [left; assumption|right; right; assumption].
  - intros y ey Hy Hn My. rewrite HC in Hy. apply in_app_or in Hy. assert (y = x). { destruct Hy as [Hy|[Hy|Hy]]; [|congruence|]; exfalso; apply Hn; apply in_or_app; auto. } subst y. destruct HE. congruence.
  - change (aliases (clean (drop_alias p b)) q) with (aliases (drop_alias p b) q). rewrite drop_alias_aliases, <- (k_aka _ _ _ _ _ LK q), HC, !map_app, filter_app. cbn [map filter].
    rewrite NMX, same_refl. cbn [negb]. rewrite !filter_id; [reflexivity| |].
    + intros y Hy. apply in_map_iff in Hy. destruct Hy as (z & <- & Hz). apply negb_true_iff, same_false. apply NMO. apply in_or_app. right. exact Hz.
    + intros y Hy. apply in_map_iff in Hy. destruct Hy as (z & <- & Hz). apply negb_true_iff, same_false. apply NMO. apply in_or_app. left. exact Hz.
  - intros q' N. change (aliases (clean (drop_alias p b)) q') with (aliases (drop_alias p b) q'). rewrite drop_alias_aliases. apply filter_id. intros y Hy. apply negb_true_iff, same_false. intros ->.
    apply aliases_in in Hy. assert (Hq : In (p, q) (aka b)). { apply aliases_in. rewrite <- (k_aka _ _ _ _ _ LK q), <- NMX. apply in_map. rewrite HC. apply in_or_app. right. left. reflexivity. }
    apply (primary_in _ _ _ (k_ndf _ _ _ _ _ LK)) in Hy. apply (primary_in _ _ _ (k_ndf _ _ _ _ _ LK)) in Hq. congruence.
  - cbn. apply map_filter_nodup, (k_ndf _ _ _ _ _ LK).
  - intros y Hy. cbn in Hy. apply filter_sub in Hy. exact Hy.
Qed.

Lemma with_head_id n : with_head (n_head n) n = n. Proof. destruct n; reflexivity. Qed.
Lemma with_tinfo_id e : with_tinfo (t_info e) e = e. Proof. destruct e; reflexivity. Qed.

Lemma o_remove p s b : Inv c W s b -> good c W (ARemove p) s b.
Proof.
  intros (D0 & (ch & LK0) & HST0); unfold good; cbn [aexec]; unfold arun. unfold alias_remove, bindP, modP, getP, retP.
  set (s0 := set_addr 0 s). assert (D : Dir c W (a_mem s0) (a_dir s0) (a_next s0)) by exact D0. assert (LK : Links c (a_mem s0) (a_dir s0) b ch) by exact LK0. assert (HST : a_stat s0 = 2 -> stale b = true) by exact HST0.
  destruct (kinds c _ _ _ _ LK (key p)) as [v' a e n H1 H2 H3|q v' x ex H1 H2 H3 H4 H5 H6 H7|H1 H2 H3].
  - destruct (check_rec2 c W s0 ch D p v' a e n H3) as (s1 & Q1 & C & S). rewrite Q1. cbn [negb]. exists AMissing, s1, b. split; [reflexivity|]. split; [apply as_remove_none; exact H2|]. keep C. intros Q. apply HST. destruct S; congruence.
  - destruct (check_alias c W s0 b ch D LK p q x ex 2 H4 H5 H6 H7) as (s1 & Q1 & C1 & _ & S & SB & SI); [cbn; tauto|]. rewrite Q1. cbn [negb]. specialize (SI ltac:(lia)).
    pose proof (Dir_core c W _ _ C1 D) as D1. pose proof (Links_core c _ _ _ _ C1 LK) as LK1.
    destruct (record_of_alias b _ _ _ H1 H3) as [X1 X2].
    destruct (read_found c W s1 b ch D1 LK1 p v' 100 X1) as (a & e & n & s2 & Q2 & C2 & (R & T1 & T2 & T3)); [cbn; tauto|]. rewrite Q2. rewrite X2 in R.
    pose proof (Dir_core c W _ _ C2 D1) as D2. pose proof (Links_core c _ _ _ _ C2 LK1) as LK2. pose proof (Rec_core c _ _ _ _ _ _ _ _ C2 R) as R2. pose proof (core_trans _ _ _ C1 C2) as C12.
    assert (HE : E c (a_mem s2) (a_dir s2) x ex) by (destruct C12 as (M1 & M2 & _); rewrite M1, M2; exact H5).
    pose proof R2 as R3. destruct R3 as (R31 & R32 & R33 & R34 & R35 & R36 & R37 & R38 & R39).
    destruct R39 as [[_ Q]|HC]; [rewrite Q in H4; contradiction|].
    assert (HNZ : (n_head n =? 0) = false) by (apply Z.eqb_neq; eapply head_nz; eauto). rewrite HNZ, SB, SI, T3.
    pose proof (ch_nodup c _ _ _ _ LK2 q) as ND. pose proof (ch_short c W _ _ _ _ _ D2 LK2 q) as SH.
    destruct (in_split _ _ H4) as (l1 & l2 & EQ). rewrite EQ in HC, ND, SH.
    assert (NXI : t_info e <> x) by (intros Q; destruct HE; congruence).
    assert (CHI : forall y, In y (ch q) -> y <> t_info e). { intros y Hy ->. destruct (k_ch _ _ _ _ _ LK2 q _ Hy) as (_ & ey & (_ & Q) & _). congruence. }
    (* whatever is done, this is what must be shown *)
    assert (FIN : forall m' h s', a_mem s' = m' -> a_dir s' = a_dir s2 -> a_next s' = a_next s2 -> a_stat s' = a_stat s2 ->
       m' (t_info e) = Inf (with_head h n) -> m' x = Ent (dead_alias ex) ->
       (forall y ey, In y (l1 ++ l2) -> a_mem s2 y = Ent ey -> exists i, m' y = Ent (with_tinfo i ey)) ->
       (forall y, y <> t_info e -> ~ In y (ch q) -> m' y = a_mem s2 y) -> head_ok m' q h (l1 ++ l2) ->
       exists r s'' b', Some (ADone, s') = Some (r, s'') /\ astep b (ARemove p) r b' /\ Inv c W s'' b').
    { intros m' h s' E1 E2 E3 E4 F1 F2 F3 F4 F5. exists ADone, s', (clean (drop_alias (key p) b)). split; [reflexivity|]. split; [eapply as_remove; exact H1|].
      destruct (L_remove (a_mem s2) (a_dir s2) (a_next s2) b ch q v' a e n (key p) x ex l1 l2 m' h D2 LK2 R2 EQ HE H7 F1 F2 F3 F4 F5) as [G1 G2].
      split; [rewrite E1, E2, E3; exact G2|]. split; [exists (ch_set ch q (l1 ++ l2)); rewrite E1, E2; exact G1|]. rewrite E4, T1. discriminate. }
    destruct l1 as [|y0 l1].
    + (* the newest alias *)
      cbn [app] in *. cbn [chain_to] in HC. destruct HC as (HX & ex' & M' & S' & HC). assert (ex' = ex) by (destruct HE; congruence). subst ex'. rewrite HX, Z.eqb_refl. cbn [andb].
      destruct (Z.eqb_spec (t_info ex) (t_info e)) as [IE|IN].
      * assert (l2 = []). { destruct l2 as [|y l2]; [reflexivity|]. cbn in HC. destruct HC as (HC & e2 & Q & _). congruence. } subst l2.
        unfold put_info, put_entry, modP. cbn [set_mem a_mem]. assert (NE : (x =? t_info e) = false) by (apply Z.eqb_neq; congruence). rewrite NE, M'.
        eapply (FIN (upd (upd (a_mem s2) (t_info e) (Inf (with_head 0 n))) x (Ent (dead_alias ex))) 0); try reflexivity.
        -- rewrite upd_ne by exact NXI. apply upd_eq.
        -- apply upd_eq.
        -- intros y ey [].
        -- intros y Hy Hn. rewrite upd_ne; [apply upd_ne; exact Hy|]. intros ->. apply Hn. exact H4.
        -- left. auto.
      * unfold put_info, put_entry, modP. cbn [set_mem a_mem]. assert (NE : (x =? t_info e) = false) by (apply Z.eqb_neq; congruence). rewrite NE, M'.
        destruct (proj1 (NoDup_cons_iff x l2) ND) as [N1 N2].
        eapply (FIN (upd (upd (a_mem s2) (t_info e) (Inf (with_head (t_info ex) n))) x (Ent (dead_alias ex))) (t_info ex)); try reflexivity.
        -- rewrite upd_ne by exact NXI. apply upd_eq.
        -- apply upd_eq.
        -- intros y ey Hy My. exists (t_info ey). rewrite with_tinfo_id. rewrite upd_ne; [rewrite upd_ne; [exact My|]|].
           ++ apply CHI. rewrite EQ. right. exact Hy.
           ++ intros ->. contradiction.
        -- intros y Hy Hn. rewrite upd_ne; [apply upd_ne; exact Hy|]. intros ->. apply Hn. exact H4.
        -- right. eapply (chain_frame (a_mem s2)); [| |exact HC].
           ++ intros z nz Hz. destruct (Z.eq_dec z (t_info e)) as [->|N].
              ** rewrite upd_ne by exact NXI. rewrite upd_eq. eexists. split; [reflexivity|]. cbn. congruence.
              ** exists nz. rewrite upd_ne by congruence. rewrite upd_ne by exact N. auto.
           ++ intros y ey Hy My. rewrite upd_ne; [rewrite upd_ne; [exact My|]|]; [|intros ->; contradiction]. apply CHI. rewrite EQ. right. exact Hy.
    + (* not the newest *)
      assert (HX : (n_head n =? x) = false).
      { apply Z.eqb_neq. cbn [app chain_to] in HC. destruct HC as (-> & _). inversion ND as [|? ? N1 N2]; subst. intros ->. apply N1. apply in_or_app. right. left. reflexivity. }
      rewrite HX. cbn [andb].
      assert (NT : ~ In x (y0 :: l1)) by (apply NoDup_remove_2 in ND; intros Q; apply ND; apply in_or_app; left; exact Q).
      assert (LF : (length (y0 :: l1) < fuel_of s2)%nat) by (unfold fuel_of; rewrite app_length in SH; lia).
      rewrite (unlink_spec q x ex (y0 :: l1) l2 (fuel_of s2) (n_head n) (n_head n) s2 HC NT LF (proj2 HE)).
      destruct (exists_last (l := y0 :: l1)) as (k & prev & EK); [discriminate|]. rewrite EK in *. rewrite last_last.
      assert (HP : In prev (ch q)) by (rewrite EQ; apply in_or_app; left; apply in_or_app; right; left; reflexivity).
      destruct (k_ch _ _ _ _ _ LK2 q prev HP) as (_ & ep & HEP & HSP).
      rewrite <- app_assoc in HC, ND. cbn [app] in HC, ND.
      assert (NPX : prev <> x) by (intros ->; apply NT; apply in_or_app; right; left; reflexivity).
      unfold bindP, put_entry. rewrite (proj2 HE). cbn [set_mem a_mem]. assert (NE : (prev =? x) = false) by (apply Z.eqb_neq; exact NPX). rewrite NE, (proj2 HEP).
      pose proof (chain_unlink (a_mem s2) q x ex l2 prev ep k (n_head n) HC ND (proj2 HE) (proj2 HEP)) as CU. rewrite <- (app_assoc k [prev] l2) in FIN. cbn [app] in FIN.
      eapply (FIN (upd (upd (a_mem s2) x (Ent (dead_alias ex))) prev (Ent (with_tinfo (t_info ex) ep))) (n_head n)); try reflexivity.
      * rewrite with_head_id. rewrite upd_ne by (intros Q; apply (CHI prev HP); congruence). rewrite upd_ne by exact NXI. exact R34.
      * rewrite upd_ne by congruence. apply upd_eq.
      * intros y ey Hy My. destruct (Z.eq_dec y prev) as [->|N]; [rewrite upd_eq; exists (t_info ex); destruct HEP; congruence|].
        exists (t_info ey). rewrite with_tinfo_id. rewrite upd_ne by exact N. rewrite upd_ne; [exact My|]. intros ->. apply in_app_or in Hy. destruct Hy as [Hy|[Hy|Hy]]; [|congruence|].
        -- apply NT. apply in_or_app. left. exact Hy.
        -- replace (k ++ prev :: x :: l2) with ((k ++ [prev]) ++ x :: l2) in ND by (rewrite <- app_assoc; reflexivity). apply NoDup_remove_2 in ND. apply ND. apply in_or_app. right. exact Hy.
      * intros y Hy Hn. rewrite upd_ne by congruence. rewrite upd_ne by congruence. reflexivity.
      * right. exact CU.
  - destruct (check_none c W s0 D p 2 H3) as (s1 & Q1 & C & _ & S); [cbn; tauto|]. rewrite Q1. cbn [negb]. exists AMissing, s1, b. split; [reflexivity|]. split; [apply as_remove_none; exact H2|]. keep C. intros Q. apply HST. destruct S; congruence.
Qed.

(** ** All aliases *)
Lemma remove_all_found s b ch p v : Dir c W (a_mem s) (a_dir s) (a_next s) -> Links c (a_mem s) (a_dir s) b ch -> record_of b (key p) = Some v ->
  exists r s', alias_remove_all c p s = Val r s' /\ a_stat s' = 1 /\ a_next s' = a_next s /\ a_dir s' = a_dir s /\
    Dir c W (a_mem s') (a_dir s') (a_next s') /\ (exists ch', Links c (a_mem s') (a_dir s') (drop_aliases (resolve b (key p)) b) ch') /\
    (r = Some (Z.of_nat (length (aliases b (resolve b (key p))))) \/ (r = None /\ aliases b (resolve b (key p)) = [])) /\
    (forall a e n, Rec c (a_mem s) (a_dir s) ch (resolve b (key p)) v a e n -> a_mem s' (t_info e) = Inf (with_head 0 n) /\ a_mem s' a = Ent e).
Proof.
  intros D LK HR. unfold alias_remove_all, bindP, getP, retP.
  destruct (read_found c W s b ch D LK p v 100 HR) as (a & e & n & s1 & H1 & C & (R & S1 & S2 & S3)); [cbn; tauto|]. rewrite H1. set (q := resolve b (key p)) in *.
  pose proof (Dir_core c W _ _ C D) as D1. pose proof (Links_core c _ _ _ _ C LK) as LK1. pose proof (Rec_core c _ _ _ _ _ _ _ _ C R) as R1. destruct C as (C1 & C2 & C3).
  pose proof R1 as R3. destruct R3 as (R31 & R32 & R33 & R34 & R35 & R36 & R37 & R38 & R39).
  assert (ONE : forall a' e' n', Rec c (a_mem s) (a_dir s) ch q v a' e' n' -> a' = a /\ e' = e /\ n' = n).
  { intros a' e' n' R'. assert (EE : a' = a /\ e' = e). { destruct R' as (Q1 & Q2 & Q3 & _), R as (U1 & U2 & U3 & _). eapply (E_uniq c W _ _ _ D a' a e' e Q1 U1); [congruence|left; exact Q2|left; exact U2]. }
    destruct EE as [-> ->]. split; [reflexivity|]. split; [reflexivity|]. pose proof (own_inf _ _ _ _ _ _ _ _ _ R'). pose proof (own_inf _ _ _ _ _ _ _ _ _ R). congruence. }
  destruct R39 as [[Q1 Q2]|HC].
  - rewrite Q1. cbn. exists None, s1. assert (AN : aliases b q = []) by (rewrite <- (k_aka _ _ _ _ _ LK q), Q2; reflexivity).
    split; [reflexivity|]. split; [exact S1|]. split; [exact C3|]. split; [exact C2|]. split; [exact D1|]. split; [|split; [auto|]].
    + exists ch. eapply Links_ext; [| |exact LK1]; [reflexivity|]. cbn. apply filter_id. intros [x r] Hx. cbn. apply negb_true_iff, same_false. intros ->. assert (In x (aliases b q)) by (apply aliases_in; exact Hx). rewrite AN in H. contradiction.
    + intros a' e' n' R'. destruct (ONE a' e' n' R') as (-> & -> & ->). split; [rewrite R34, <- Q1, with_head_id; reflexivity|apply R31].
  - assert (HNZ : (n_head n =? 0) = false) by (apply Z.eqb_neq; eapply head_nz; eauto). rewrite HNZ. unfold put_info, modP. rewrite S3. set (s2 := set_mem (t_info e) (Inf (with_head 0 n)) s1).
    pose proof (ch_nodup c _ _ _ _ LK1 q) as ND. pose proof (ch_short c W _ _ _ _ _ D1 LK1 q) as SH.
    assert (CHI : forall y, In y (ch q) -> y <> t_info e). { intros y Hy ->. destruct (k_ch _ _ _ _ _ LK1 q _ Hy) as (_ & ey & (_ & Q) & _). congruence. }
    assert (M2 : forall y, y <> t_info e -> a_mem s2 y = a_mem s1 y) by (intros y N; cbn; apply Z.eqb_neq in N; rewrite N; reflexivity).
    assert (M2I : a_mem s2 (t_info e) = Inf (with_head 0 n)) by (cbn; rewrite Z.eqb_refl; reflexivity).
    destruct (kill_spec q (t_info e) (ch q) (fuel_of s2) (n_head n) 0 s2) as (s3 & K1 & K2 & K3 & K4 & K5 & K6).
    { eapply (chain_frame (a_mem s1)); [| |exact HC].
      - intros z nz Hz. destruct (Z.eq_dec z (t_info e)) as [->|N]; [rewrite M2I; eexists; split; [reflexivity|]; cbn; congruence|rewrite (M2 z N); eauto].
      - intros y ey Hy My. rewrite M2; [exact My|apply CHI; exact Hy]. }
    { exact ND. } { exact SH. } { eauto. }
    rewrite K1. cbn [a_dir a_next a_stat set_mem s2] in K2, K3, K4.
    destruct (L_less c W (a_mem s1) (a_dir s1) (a_next s1) b ch D1 LK1 q v a e n R1 (a_mem s3) 0 [] (drop_aliases q b)) as [G1 G2].
    + rewrite K5; [exact M2I|]. intros Q. apply (CHI _ Q). reflexivity.
    + intros y Hy Hn. rewrite K5 by exact Hn. apply M2, Hy.
    + intros y [].
    + intros y ey [].
    + intros y ey Hy _ My. apply K6; [exact Hy|]. rewrite M2; [exact My|apply CHI, Hy].
    + left. auto.
    + reflexivity.
    + rewrite drop_aliases_aliases, same_refl. reflexivity.
    + intros q' N. rewrite drop_aliases_aliases. apply same_false in N. rewrite N. reflexivity.
    + cbn. apply map_filter_nodup, (k_ndf _ _ _ _ _ LK1).
    + intros y Hy. cbn in Hy. apply filter_sub in Hy. exact Hy.
    + eexists _, s3. split; [reflexivity|]. split; [congruence|]. split; [congruence|]. split; [congruence|]. rewrite K2, K3. split; [exact G2|]. split; [exists (ch_set ch q []); exact G1|]. split.
      * left. rewrite <- (k_aka _ _ _ _ _ LK q), map_length. reflexivity.
      * intros a' e' n' R'. destruct (ONE a' e' n' R') as (-> & -> & ->). split; [rewrite K5; [exact M2I|]; intros Q; apply (CHI _ Q); reflexivity|].
        rewrite K5 by (eapply not_ch; eauto). rewrite M2; [apply R31|]. intros Q. destruct R31. congruence.
Qed.
Lemma o_remove_all p s b : Inv c W s b -> good c W (ARemoveAll p) s b.
Proof.
  intros (D & (ch & LK) & HST); unfold good; cbn [aexec]; unfold arun. destruct (record_of b (key p)) as [v|] eqn:HR.
  - destruct (remove_all_found s b ch p v D LK HR) as (r & s' & H1 & H2 & H3 & H4 & H5 & (ch' & H6) & H7 & _). rewrite H1.
    assert (IN : Inv c W s' (clean (drop_aliases (resolve b (key p)) b))). { split; [exact H5|]. split; [|lia]. exists ch'. eapply Links_ext; [| |exact H6]; reflexivity. }
    destruct H7 as [->|[-> H7]].
    + eexists _, s', _. split; [reflexivity|]. split; [eapply as_remove_all; exact HR|exact IN].
    + exists AMissing, s', b. split; [reflexivity|]. split; [apply as_remove_all_none; exact H7|].
      split; [exact H5|]. split; [|lia]. exists ch'. eapply Links_ext; [| |exact H6]; [reflexivity|]. cbn. symmetry. apply filter_id. intros [x r] Hx. cbn. apply negb_true_iff, same_false. intros ->.
      assert (In x (aliases b (resolve b (key p)))) by (apply aliases_in; exact Hx). rewrite H7 in H. contradiction.
  - unfold alias_remove_all, bindP, getP, retP. destruct (read_missing_any c W s b ch D LK p HR) as (s1 & C & [(S1 & [H1|(n & H1 & H2)])|(H1 & S1)]); rewrite H1.
    + exists AMissing, s1, b. split; [reflexivity|]. split; [|keep C; congruence]. apply as_remove_all_none.
      destruct (aliases b (resolve b (canon p))) as [|x l] eqn:Q; [reflexivity|]. exfalso. assert (QI : In x (aliases b (resolve b (key p)))) by (change key with canon; rewrite Q; left; reflexivity). apply aliases_in in QI.
      destruct (alias_rec c _ _ _ _ LK _ _ QI) as (v & Hv). unfold record_of in HR. congruence.
    + rewrite H2. cbn. exists AMissing, s1, b. split; [reflexivity|]. split; [|keep C; congruence]. apply as_remove_all_none.
      destruct (aliases b (resolve b (canon p))) as [|x l] eqn:Q; [reflexivity|]. exfalso. assert (QI : In x (aliases b (resolve b (key p)))) by (change key with canon; rewrite Q; left; reflexivity). apply aliases_in in QI.
      destruct (alias_rec c _ _ _ _ LK _ _ QI) as (v & Hv). unfold record_of in HR. congruence.
    + exists AFail, s1, b. split; [reflexivity|]. split; [eapply as_stale; [auto|exact HR|cbn; tauto]|]. keep C. auto.
Qed.

(** ** Deleting *)
Lemma o_delete p s b : (forall v, record_of b (key p) = Some v -> name_words (resolve b (key p)) <= W) -> Inv c W s b -> good c W (ADelete p) s b.
Proof.
  intros HW. intros (D0 & (ch & LK0) & HST0); unfold good; cbn [aexec]; unfold arun. unfold delete, bindP, modP, getP, retP.
  set (s0 := set_addr 0 s). assert (D : Dir c W (a_mem s0) (a_dir s0) (a_next s0)) by exact D0. assert (LK : Links c (a_mem s0) (a_dir s0) b ch) by exact LK0. assert (HST : a_stat s0 = 2 -> stale b = true) by exact HST0.
  destruct (record_of b (key p)) as [v|] eqn:HR.
  - specialize (HW v eq_refl). destruct (read_found c W s0 b ch D LK p v 1 HR) as (a & e & n & s1 & H1 & C & (R & S1 & S2 & S3)); [cbn; tauto|]. rewrite H1. set (q := resolve b (key p)) in *.
    pose proof (Dir_core c W _ _ C D) as D1. pose proof (Links_core c _ _ _ _ C LK) as LK1. pose proof (Rec_core c _ _ _ _ _ _ _ _ C R) as R1.
    (* what is left to do once there are no aliases *)
    assert (FIN : forall s2 b2 ch2 a2 e2 n2, Dir c W (a_mem s2) (a_dir s2) (a_next s2) -> Links c (a_mem s2) (a_dir s2) b2 ch2 -> Rec c (a_mem s2) (a_dir s2) ch2 q v a2 e2 n2 -> n_head n2 = 0 -> ch2 q = [] ->
      a_stat s2 = 1 -> a_bin s2 = a2 -> a_info s2 = t_info e2 -> (forall k, recs b2 k = recs b k) -> aka b2 = aka (drop_aliases q b) ->
      exists r s' b', match put_entry (a_bin s2) (with_tstatus 11) s2 with
                      | Val _ s3 => match put_info (a_info s2) (with_istatus 11 n2) s3 with Val _ s4 => Some (ADone, forget s4) | Err s4 => Some (AFail, s4) | Bad => None end
                      | Err s3 => Some (AFail, s3) | Bad => None end = Some (r, s') /\ astep b (ADelete p) r b' /\ Inv c W s' b').
    { intros s2 b2 ch2 a2 e2 n2 F1 F2 F3 F4 F5 F6 F7 F8 F9 F10. rewrite F7, F8. unfold put_entry, put_info, modP. rewrite (proj2 (own_ent _ _ _ _ _ _ _ _ _ F3)).
      eexists ADone, _, _. split; [reflexivity|]. split; [eapply as_delete; exact HR|].
      destruct (L_del c W (a_mem s2) (a_dir s2) (a_next s2) b2 ch2 F1 F2 q v a2 e2 n2 F3 F5 F4 HW) as [G1 G2]. split; [exact G2|]. split; [|cbn; lia].
      exists (ch_set ch2 q []). eapply Links_ext; [| |exact G1].
      - intros k. cbn. change canon with key. fold q. destruct (same k q); [reflexivity|symmetry; apply F9].
      - cbn. change canon with key. fold q. symmetry. exact F10. }
    destruct (Z.eqb_spec (n_head n) 0) as [HZ|HZ].
    + assert (CQ : ch q = []).
      { pose proof R1 as R3. destruct R3 as (_ & _ & _ & _ & _ & _ & _ & _ & [[_ R39]|R39]); [exact R39|]. exfalso. eapply head_nz; eauto. }
      assert (AK : aka b = aka (drop_aliases q b)). { cbn. symmetry. apply filter_id. intros [x r] Hx. cbn. apply negb_true_iff, same_false. intros ->. assert (QI : In x (aliases b q)) by (apply aliases_in; exact Hx). rewrite <- (k_aka _ _ _ _ _ LK q), CQ in QI. contradiction. }
      destruct (FIN s1 b ch a e n D1 LK1 R1 HZ CQ S1 S2 S3 (fun _ => eq_refl) AK) as (r & s' & b' & G1 & G2). exists r, s', b'. split; [|exact G2]. rewrite <- G1.
      unfold put_entry, put_info, modP. destruct (a_mem s1 (a_bin s1)); reflexivity.
    + assert (PR : exists path s2, get_primary c p s1 = Val path s2 /\ core s1 s2 /\ key path = q).
      { destruct (kinds c _ _ _ _ LK1 (key p)) as [v' a' e' n' K1 K2 K3|q' v' a' e' K1 K2 K3 K4 K5 K6 K7|K1 K2 K3].
        - destruct (primary_rec c W s1 ch D1 p v' a' e' n' K3) as (s2 & Q1 & Q2 & _). exists p, s2. split; [exact Q1|]. split; [exact Q2|]. symmetry. unfold q. apply (record_of_rec b _ _ K2 K1).
        - destruct (primary_alias c W s1 b ch D1 LK1 p q' a' e' K4 K5 K6 K7) as (path & s2 & Q1 & Q2 & _ & Q3). exists path, s2. split; [exact Q1|]. split; [exact Q2|]. rewrite Q3. symmetry. unfold q. apply (record_of_alias b _ _ _ K1 K3).
        - unfold record_of, resolve in HR. rewrite K2 in HR. congruence. }
      destruct PR as (path & s2 & P1 & C2 & PK). rewrite P1.
      pose proof (Dir_core c W _ _ C2 D1) as D2. pose proof (Links_core c _ _ _ _ C2 LK1) as LK2. pose proof (Rec_core c _ _ _ _ _ _ _ _ C2 R1) as R2.
      destruct (remove_all_found s2 b ch p v D2 LK2 HR) as (r & s3 & A1 & A2 & A3 & A4 & A5 & (ch3 & A6) & _ & A8). rewrite A1. fold q in A6, A8. specialize (A8 a e n R2).
      set (s4 := set_addr 0 s3). set (b3 := drop_aliases q b) in *.
      assert (D4 : Dir c W (a_mem s4) (a_dir s4) (a_next s4)) by exact A5. assert (LK4 : Links c (a_mem s4) (a_dir s4) b3 ch3) by exact A6.
      assert (RB : recs b q = Some v) by (unfold record_of in HR; exact HR).
      assert (NP : primary_of b3 q = None).
      { destruct (primary_of b3 q) as [r'|] eqn:Q; [|reflexivity]. exfalso. apply (primary_in b3 q r' (k_ndf _ _ _ _ _ LK4)) in Q. apply (k_apart _ _ _ _ _ LK4) in Q. cbn in Q. congruence. }
      assert (HR4 : record_of b3 (key path) = Some v) by (rewrite PK; apply (record_of_rec b3 q v NP RB)).
      destruct (read_found c W s4 b3 ch3 D4 LK4 path v 1 HR4) as (a5 & e5 & n5 & s5 & H5 & C5 & (R5 & T1 & T2 & T3)); [cbn; tauto|]. rewrite H5.
      assert (RQ : resolve b3 (key path) = q) by (rewrite PK; apply (record_of_rec b3 q v NP RB)). rewrite RQ in R5.
      pose proof (Dir_core c W _ _ C5 D4) as D5. pose proof (Links_core c _ _ _ _ C5 LK4) as LK5. pose proof (Rec_core c _ _ _ _ _ _ _ _ C5 R5) as R6.
      assert (CQ : ch3 q = []).
      { destruct (ch3 q) as [|y l] eqn:Q; [reflexivity|]. pose proof (k_aka _ _ _ _ _ LK4 q) as KA. unfold b3 in KA. rewrite drop_aliases_aliases, same_refl, Q in KA. discriminate. }
      assert (HZ5 : n_head n5 = 0).
      { destruct A8 as [A8 A9]. assert (HE4 : E c (a_mem s4) (a_dir s4) a e). { split; [|exact A9]. cbn. rewrite A4. apply (own_ent _ _ _ _ _ _ _ _ _ R2). }
        pose proof R5 as R7. destruct R7 as (U1 & U2 & U3 & U4 & _). pose proof R2 as R8. destruct R8 as (V1 & V2 & V3 & _).
        destruct (E_uniq c W _ _ _ D4 a5 a e5 e U1 HE4) as [_ ->]; [congruence|left; exact U2|left; exact V2|]. cbn in U4. rewrite A8 in U4. inversion U4. reflexivity. }
      destruct (FIN s5 b3 ch3 a5 e5 n5 D5 LK5 R6 HZ5 CQ T1 T2 T3 (fun _ => eq_refl) eq_refl) as (r' & s' & b' & G1 & G2). exists r', s', b'. split; [|exact G2]. rewrite <- G1.
      unfold put_entry, put_info, modP. destruct (a_mem s5 (a_bin s5)); reflexivity.
  - destruct (read_missing c W s0 b ch D LK p 1 HR) as (s1 & C & [(H1 & _ & S1)|(H1 & S1)]); [cbn; tauto| |]; rewrite H1.
    + exists AMissing, (forget s1), b. split; [reflexivity|]. split; [apply as_delete_none; exact HR|]. assert (C' : core s0 (forget s1)) by exact C. keep C'. cbn. congruence.
    + exists AFail, s1, b. split; [reflexivity|]. split; [eapply as_stale; [auto|exact HR|cbn; tauto]|]. keep C. auto.
Qed.
End HIST.
