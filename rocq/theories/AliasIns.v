(** * The directory after a change of entries, and zbinUpdate. *)
From Coq Require Import ZArith List Lia Bool.
From Verif Require Import Base PackModel HashModel FileModel FileLemmas FileSpec AliasModel AliasSpec AliasProofs.
Import ListNotations.
Open Scope Z_scope.

Definition upd (m : Z -> cell) (a : Z) (x : cell) : Z -> cell := fun k => if k =? a then x else m k.
Lemma upd_eq m a x : upd m a x a = x. Proof. unfold upd. rewrite Z.eqb_refl. reflexivity. Qed.
Lemma upd_ne m a x k : k <> a -> upd m a x k = m k. Proof. intros H. unfold upd. destruct (Z.eqb_spec k a); [contradiction|reflexivity]. Qed.

Lemma nodup_split {A} (a : A) : forall l1 k1 l2 k2, NoDup (l1 ++ a :: l2) -> l1 ++ a :: l2 = k1 ++ a :: k2 -> l1 = k1.
Proof.
  induction l1 as [|u l1 IH]; intros [|v k1] l2 k2 ND HC; cbn in *; [reflexivity| | |].
  - inversion HC; subst. inversion ND as [|? ? N1 N2]; subst. exfalso. apply N1. apply in_or_app. right. left. reflexivity.
  - inversion HC; subst. inversion ND as [|? ? N1 N2]; subst. exfalso. apply N1. apply in_or_app. right. left. reflexivity.
  - inversion HC; subst. inversion ND as [|? ? N1 N2]; subst. f_equal. eapply IH; eauto.
Qed.

Section INS.
Variables (c : dcfg) (W : Z).

Lemma Dir_more m dir nx nx' : nx <= nx' -> Dir c W m dir nx -> Dir c W m dir nx'.
Proof.
  intros H D. pose proof (k_nx _ _ _ _ _ D). constructor; [lia| |apply D|apply D|apply D|apply D]. intros a Ha. apply (k_low _ _ _ _ _ D) in Ha. lia.
Qed.

(** Entries keep their names and places. *)
Lemma Dir_map m m' dir nx : Dir c W m dir nx -> (forall a, m' a <> Free -> 0 < a < nx) ->
  (forall t a e, In a (concat (dir t)) -> m a = Ent e ->
     exists e', m' a = Ent e' /\ t_name e' = t_name e /\ entry_ok c W e' /\ (live e' -> live e) /\ (t_status e' = 11 -> t_status e = 11 \/ live e)) ->
  Dir c W m' dir nx.
Proof.
  intros D HL HE.
  assert (BACK : forall t a e', In a (concat (dir t)) -> m' a = Ent e' -> exists e, m a = Ent e /\ t_name e' = t_name e /\ entry_ok c W e' /\ (live e' -> live e) /\ (t_status e' = 11 -> t_status e = 11 \/ live e)).
  { intros t a e' HI HM. destruct (k_dir _ _ _ _ _ D t a HI) as (e & E1 & _). destruct (HE t a e HI E1) as (e2 & Q1 & Q2). rewrite HM in Q1. inversion Q1; subst e2. exists e. auto. }
  constructor; [apply D|exact HL| |apply D| |].
  - intros t a HI. destruct (k_dir _ _ _ _ _ D t a HI) as (e & E1 & E2 & E3). destruct (HE t a e HI E1) as (e' & Q1 & Q2 & Q3 & _). exists e'. rewrite Q2. auto.
  - intros t a a' e e' I1 I2 M1 M2 HK L1 L2. destruct (BACK t a e I1 M1) as (e0 & A1 & A2 & _ & A3 & _). destruct (BACK t a' e' I2 M2) as (e0' & B1 & B2 & _ & B3 & _).
    eapply (k_live _ _ _ _ _ D); eauto. congruence.
  - intros t l1 a l2 e x e' HC M1 L1 HX M2 HK HS.
    assert (I1 : In a (concat (dir t))) by (rewrite HC; apply in_or_app; right; left; reflexivity).
    assert (I2 : In x (concat (dir t))) by (rewrite HC; apply in_or_app; left; exact HX).
    destruct (BACK t a e I1 M1) as (e0 & A1 & A2 & _ & A3 & _). destruct (BACK t x e' I2 M2) as (e0' & B1 & B2 & _ & _ & B4).
    destruct (B4 HS) as [B5|B5].
    + eapply (k_first _ _ _ _ _ D t l1 a l2 e0 x e0'); eauto. congruence.
    + assert (a = x) by (eapply (k_live _ _ _ _ _ D t a x e0 e0'); eauto; congruence). subst x.
      pose proof (k_nd _ _ _ _ _ D t) as ND. rewrite HC in ND. apply NoDup_remove_2 in ND. apply ND. apply in_or_app. left. exact HX.
Qed.

(** A new live entry in the place of a dead one. *)
Lemma Dir_reuse m dir nx e t l1 a l2 e0 : Dir c W m dir nx -> entry_ok c W e -> live e -> t = fst (hashes c (t_name e)) ->
  concat (dir t) = l1 ++ a :: l2 -> m a = Ent e0 -> ~ live e0 ->
  (forall x e', E c m dir x e' -> key (t_name e') = key (t_name e) -> ~ live e') ->
  (forall x e', In x l1 -> m x = Ent e' -> key (t_name e') = key (t_name e) -> t_status e' <> 11) ->
  Dir c W (upd m a (Ent e)) dir nx.
Proof.
  intros D OK LV Ht HC HM NL NK NF. assert (HI : In a (concat (dir t))) by (rewrite HC; apply in_or_app; right; left; reflexivity).
  assert (NT : forall t', In a (concat (dir t')) -> t' = t).
  { intros t' H'. destruct (k_dir _ _ _ _ _ D t a HI) as (x1 & X1 & X2 & _). destruct (k_dir _ _ _ _ _ D t' a H') as (x2 & Y1 & Y2 & _). congruence. }
  constructor; [apply D| | |apply D| |].
  - intros k Hk. destruct (Z.eq_dec k a) as [->|N]; [apply (k_low _ _ _ _ _ D); congruence|]. rewrite upd_ne in Hk by exact N. apply (k_low _ _ _ _ _ D). exact Hk.
  - intros t' k Hk. destruct (Z.eq_dec k a) as [->|N].
    + rewrite upd_eq. exists e. split; [reflexivity|]. split; [rewrite (NT t' Hk); auto|exact OK].
    + rewrite upd_ne by exact N. apply (k_dir _ _ _ _ _ D). exact Hk.
  - intros t' x x' e1 e2 I1 I2 M1 M2 HK L1 L2.
    destruct (Z.eq_dec x a) as [->|N1]; destruct (Z.eq_dec x' a) as [->|N2]; [reflexivity| | |].
    + rewrite upd_eq in M1. inversion M1; subst e1. rewrite upd_ne in M2 by exact N2. exfalso. apply (NK x' e2); [eapply dir_E; eauto|congruence|exact L2].
    + rewrite upd_eq in M2. inversion M2; subst e2. rewrite upd_ne in M1 by exact N1. exfalso. apply (NK x e1); [eapply dir_E; eauto|congruence|exact L1].
    + rewrite upd_ne in M1 by exact N1. rewrite upd_ne in M2 by exact N2. eapply (k_live _ _ _ _ _ D); eauto.
  - intros t' k1 x k2 e1 y e2 HC' M1 L1 HY M2 HK HS.
    assert (I1 : In x (concat (dir t'))) by (rewrite HC'; apply in_or_app; right; left; reflexivity).
    assert (I2 : In y (concat (dir t'))) by (rewrite HC'; apply in_or_app; left; exact HY).
    destruct (Z.eq_dec y a) as [->|N2].
    { rewrite upd_eq in M2. inversion M2; subst e2. destruct LV; congruence. }
    rewrite upd_ne in M2 by exact N2. destruct (Z.eq_dec x a) as [->|N1].
    + rewrite upd_eq in M1. inversion M1; subst e1. rewrite (NT t' I1) in HC'. rewrite HC in HC'.
      assert (EQ : l1 = k1).
      { pose proof (k_nd _ _ _ _ _ D t) as ND. rewrite HC in ND. eapply nodup_split; eauto. }
      subst k1. eapply NF; eauto.
    + rewrite upd_ne in M1 by exact N1. eapply (k_first _ _ _ _ _ D t' k1 x k2 e1 y e2); eauto.
Qed.
(** A new live entry behind the others. *)
Lemma Dir_fresh m dir dir' nx e t : Dir c W m dir nx -> entry_ok c W e -> live e -> t = fst (hashes c (t_name e)) ->
  (forall t', t' <> t -> concat (dir' t') = concat (dir t')) -> concat (dir' t) = concat (dir t) ++ [nx] ->
  (forall x e', E c m dir x e' -> key (t_name e') = key (t_name e) -> ~ live e') ->
  (forall x e', E c m dir x e' -> key (t_name e') = key (t_name e) -> t_status e' <> 11) ->
  Dir c W (upd m nx (Ent e)) dir' (nx + 1).
Proof.
  intros D OK LV Ht HO HN NK NF. pose proof (k_nx _ _ _ _ _ D) as HX.
  assert (OLD : forall t' k, In k (concat (dir t')) -> k <> nx).
  { intros t' k Hk. destruct (k_dir _ _ _ _ _ D t' k Hk) as (e1 & M1 & _). assert (0 < k < nx) by (apply (k_low _ _ _ _ _ D); congruence). lia. }
  assert (SPLIT : forall t' k, In k (concat (dir' t')) -> (In k (concat (dir t')) /\ k <> nx) \/ (k = nx /\ t' = t)).
  { intros t' k Hk. destruct (Z.eq_dec t' t) as [->|N].
    - rewrite HN in Hk. apply in_app_or in Hk. destruct Hk as [Hk|[Hk|[]]]; [left; split; [exact Hk|eapply OLD; eauto]|right; auto].
    - rewrite (HO t' N) in Hk. left. split; [exact Hk|eapply OLD; eauto]. }
  constructor.
  - lia.
  - intros k Hk. destruct (Z.eq_dec k nx) as [->|N]; [lia|]. rewrite upd_ne in Hk by exact N. apply (k_low _ _ _ _ _ D) in Hk. lia.
  - intros t' k Hk. destruct (SPLIT t' k Hk) as [[H1 H2]|[-> ->]].
    + rewrite upd_ne by exact H2. apply (k_dir _ _ _ _ _ D). exact H1.
    + rewrite upd_eq. exists e. auto.
  - intros t'. destruct (Z.eq_dec t' t) as [->|N].
    + rewrite HN. pose proof (k_nd _ _ _ _ _ D t) as ND. clear -ND OLD.
      specialize (OLD t). induction (concat (dir t)) as [|u l IH]; cbn; [constructor; [intros []|constructor]|].
      inversion ND as [|? ? N1 N2]; subst. constructor.
      * intros Q. apply in_app_or in Q. destruct Q as [Q|[Q|[]]]; [contradiction|]. apply (OLD u); [left; reflexivity|auto].
      * apply IH; [|exact N2]. intros k Hk. apply OLD. right. exact Hk.
    + rewrite (HO t' N). apply D.
  - intros t' x x' e1 e2 I1 I2 M1 M2 HK L1 L2. destruct (SPLIT t' x I1) as [[A1 A2]|[-> A2]]; destruct (SPLIT t' x' I2) as [[B1 B2]|[-> B2]]; [| | |reflexivity].
    + rewrite upd_ne in M1, M2 by assumption. eapply (k_live _ _ _ _ _ D); eauto.
    + rewrite upd_eq in M2. inversion M2; subst e2. rewrite upd_ne in M1 by exact A2. exfalso. apply (NK x e1); [eapply dir_E; eauto|congruence|exact L1].
    + rewrite upd_eq in M1. inversion M1; subst e1. rewrite upd_ne in M2 by exact B2. exfalso. apply (NK x' e2); [eapply dir_E; eauto|congruence|exact L2].
  - intros t' k1 x k2 e1 y e2 HC' M1 L1 HY M2 HK HS.
    assert (I1 : In x (concat (dir' t'))) by (rewrite HC'; apply in_or_app; right; left; reflexivity).
    assert (I2 : In y (concat (dir' t'))) by (rewrite HC'; apply in_or_app; left; exact HY).
    destruct (SPLIT t' y I2) as [[B1 B2]|[-> B2]].
    2:{ rewrite upd_eq in M2. inversion M2; subst e2. destruct LV; congruence. }
    rewrite upd_ne in M2 by exact B2. destruct (SPLIT t' x I1) as [[A1 A2]|[-> A2]].
    + rewrite upd_ne in M1 by exact A2. destruct (Z.eq_dec t' t) as [->|N].
      * rewrite HN in HC'. destruct (exists_last (l := x :: k2)) as (k3 & z & EQ); [discriminate|]. rewrite EQ, app_assoc in HC'. apply app_inj_tail in HC'. destruct HC' as [HC' Hz]. subst z.
        destruct k3 as [|x3 k3]; [cbn in EQ; inversion EQ; subst; contradiction|]. cbn in EQ. inversion EQ; subst x3.
        eapply (k_first _ _ _ _ _ D t k1 x k3 e1 y e2); eauto.
      * rewrite (HO t' N) in HC'. eapply (k_first _ _ _ _ _ D t' k1 x k2 e1 y e2); eauto.
    + rewrite upd_eq in M1. inversion M1; subst e1. subst t'. apply (NF y e2); [eapply dir_E; eauto|congruence|exact HS].
Qed.

(** ** zbinUpdate *)
Lemma bws_some m size : forall bins n, bin_with_space m size bins = Some n ->
  exists b1 b b2, bins = b1 ++ b :: b2 /\ length b1 = n /\ (exists x e, In x b /\ m x = Ent e /\ t_status e = 11 /\ size <= t_size e) /\
    (forall x e, In x (concat b1) -> m x = Ent e -> t_status e = 11 -> t_size e < size).
Proof.
  induction bins as [|b bins IH]; intros n H; cbn [bin_with_space] in H; [discriminate|].
  destruct (existsb _ b) eqn:Q.
  - inversion H; subst. exists [], b, bins. split; [reflexivity|]. split; [reflexivity|]. split; [|intros ? ? []].
    apply existsb_exists in Q. destruct Q as (x & Q1 & Q2). destruct (m x) as [|e|] eqn:M; try discriminate. apply andb_true_iff in Q2. exists x, e. repeat split; auto; lia.
  - destruct (bin_with_space m size bins) as [n0|] eqn:R; [|discriminate]. cbn in H. inversion H; subst. destruct (IH n0 eq_refl) as (b1 & b0 & b2 & -> & L & X & Y).
    exists (b :: b1), b0, b2. split; [reflexivity|]. split; [cbn; lia|]. split; [exact X|]. intros x e Hx M S. cbn in Hx. apply in_app_or in Hx. destruct Hx as [Hx|Hx]; [|eauto].
    destruct (Z.ltb_spec (t_size e) size); [assumption|]. assert (Q' : existsb (fun a => match m a with Ent e => (t_status e =? 11) && (size <=? t_size e) | _ => false end) b = true).
    { apply existsb_exists. exists x. split; [exact Hx|]. rewrite M, S. cbn. lia. } congruence.
Qed.
Lemma bws_none m size : forall bins, bin_with_space m size bins = None -> forall x e, In x (concat bins) -> m x = Ent e -> t_status e = 11 -> t_size e < size.
Proof.
  induction bins as [|b bins IH]; intros H x e Hx M S; cbn [bin_with_space] in H; [destruct Hx|].
  destruct (existsb _ b) eqn:Q; [discriminate|]. destruct (bin_with_space m size bins) as [n0|] eqn:R; [discriminate|]. cbn in Hx. apply in_app_or in Hx. destruct Hx as [Hx|Hx]; [|eauto].
  destruct (Z.ltb_spec (t_size e) size); [assumption|]. assert (Q' : existsb (fun a => match m a with Ent e => (t_status e =? 11) && (size <=? t_size e) | _ => false end) b = true).
  { apply existsb_exists. exists x. split; [exact Hx|]. rewrite M, S. cbn. lia. } congruence.
Qed.
Lemma slot_some m r size h p : forall b a, slot_in m r size h p b = Some a ->
  exists b1 b2 e, b = b1 ++ a :: b2 /\ m a = Ent e /\ ((r = true /\ (t_status e = 11 \/ t_status e = 12) /\ t_size e = size) \/ hits h p e = true) /\
    (forall x e', In x b1 -> m x = Ent e' -> hits h p e' = false).
Proof.
  induction b as [|x b IH]; intros a H; cbn [slot_in] in H; [discriminate|].
  destruct (m x) as [|e|] eqn:M.
  - destruct (IH a H) as (b1 & b2 & e & -> & Q1 & Q2 & Q3). exists (x :: b1), b2, e. repeat split; auto. intros y e' [<-|Hy] My; [congruence|eauto].
  - destruct (_ || hits h p e) eqn:Q.
    + inversion H; subst. exists [], b, e. repeat split; auto; [|intros ? ? []]. apply orb_true_iff in Q. destruct Q as [Q|Q]; [left|right; exact Q].
      apply andb_true_iff in Q. destruct Q as [Q Q3]. apply andb_true_iff in Q. destruct Q as [Q1 Q2]. apply orb_true_iff in Q2. repeat split; [exact Q1|lia|lia].
    + destruct (IH a H) as (b1 & b2 & e0 & -> & Q1 & Q2 & Q3). exists (x :: b1), b2, e0. repeat split; auto. intros y e' [<-|Hy] My; [|eauto].
      rewrite M in My. inversion My; subst. apply orb_false_iff in Q. apply Q.
  - destruct (IH a H) as (b1 & b2 & e & -> & Q1 & Q2 & Q3). exists (x :: b1), b2, e. repeat split; auto. intros y e' [<-|Hy] My; [congruence|eauto].
Qed.
Lemma slot_none m r size h p : forall b, slot_in m r size h p b = None -> forall x e, In x b -> m x = Ent e -> r = true -> t_status e = 11 -> t_size e <> size.
Proof.
  induction b as [|y b IH]; intros H x e Hx M R S; [destruct Hx|]. cbn [slot_in] in H. destruct Hx as [->|Hx].
  - rewrite M, R, S in H. cbn in H. destruct (t_size e =? size) eqn:Q; [cbn in H; discriminate|lia].
  - destruct (m y) as [|e0|]; [eapply IH; eauto| |eapply IH; eauto]. destruct (_ || hits h p e0); [discriminate|eapply IH; eauto].
Qed.

(** What zbinUpdate does when the name is new. *)
Lemma bin_update_spec p address st s : Dir c W (a_mem s) (a_dir s) (a_next s) -> at_name c p s ->
  (forall x e', E c (a_mem s) (a_dir s) x e' -> key (t_name e') = key p -> ~ live e') -> W <= numberLongsInBytes (zlen p) -> (st = 1 \/ st = 2) ->
  exists a e s', bin_update c p address st s = Val tt s' /\ a_mem s' = upd (a_mem s) a (Ent e) /\
    t_status e = st /\ t_info e = address /\ t_name e = p /\
    Dir c W (a_mem s') (a_dir s') (a_next s') /\ E c (a_mem s') (a_dir s') a e /\ a_next s <= a_next s' /\
    (forall t x, In x (concat (a_dir s' t)) <-> In x (concat (a_dir s t)) \/ (x = a /\ t = fst (hashes c p))) /\
    ((a_mem s a = Free /\ a = a_next s) \/ exists e0, E c (a_mem s) (a_dir s) a e0 /\ ~ live e0) /\
    a_bin s' = a /\ a_info s' = address /\ a_stat s' = a_stat s /\ a_hash s' = a_hash s.
Proof.
  intros D (N1 & N2 & N3) NK HW HST. unfold bin_update. rewrite N1, N2, N3.
  set (size := numberLongsInBytes (zlen p)). set (t := fst (hashes c p)). set (m := a_mem s) in *.
  set (e := mkent (snd (hashes c p)) st (zlen p) size address p).
  assert (OK : entry_ok c W e). { unfold entry_ok, e. cbn. repeat split; auto; [destruct HST; subst; tauto|destruct HST; lia]. }
  assert (LV : live e) by (exact HST).
  assert (SZ : forall x e', In x (concat (a_dir s t)) -> m x = Ent e' -> t_status e' = 11 -> t_size e' <= W).
  { intros x e' Hx M S. destruct (k_dir _ _ _ _ _ D t x Hx) as (e1 & M1 & _ & (_ & _ & _ & _ & Q)). fold m in M1. rewrite M in M1. inversion M1; subst. auto. }
  assert (KS : forall x e', In x (concat (a_dir s t)) -> m x = Ent e' -> key (t_name e') = key p -> t_size e' = size).
  { intros x e' Hx M K. destruct (k_dir _ _ _ _ _ D t x Hx) as (e1 & M1 & _ & (_ & Q & _)). fold m in M1. rewrite M in M1. inversion M1; subst. rewrite Q, (key_zlen _ _ K). reflexivity. }
  assert (KH : forall x e', In x (concat (a_dir s t)) -> m x = Ent e' -> key (t_name e') = key p -> t_status e' = 11 -> hits (snd (hashes c p)) p e' = true).
  { intros x e' Hx M K S. destruct (k_dir _ _ _ _ _ D t x Hx) as (e1 & M1 & _ & Q). fold m in M1. rewrite M in M1. inversion M1; subst. apply (hits_live c W); [exact Q|lia|exact K]. }
  assert (REUSE : forall l1 a l2 e0, concat (a_dir s t) = l1 ++ a :: l2 -> m a = Ent e0 -> hits (snd (hashes c p)) p e0 = true \/ t_status e0 = 11 \/ t_status e0 = 12 -> ~ live e0).
  { intros l1 a l2 e0 HC M HH LV0. assert (HI : In a (concat (a_dir s t))) by (rewrite HC; apply in_or_app; right; left; reflexivity).
    destruct HH as [HH|HH]; [|destruct LV0; lia]. pose proof (dir_E c W m _ _ _ _ _ D HI M) as HE. apply (NK a e0 HE); [|exact LV0].
    apply (hits_live c W) in HH; [exact HH|exact (E_ok c W _ _ _ D _ _ HE)|destruct LV0; lia]. }
  assert (FIN : forall l1 a l2 e0, concat (a_dir s t) = l1 ++ a :: l2 -> m a = Ent e0 -> ~ live e0 ->
     (forall x e', In x l1 -> m x = Ent e' -> key (t_name e') = key p -> t_status e' <> 11) ->
     exists a' e' s', Val tt (mka (fun k => if k =? a then Ent e else m k) (a_dir s) (a_next s) (a_stat s) a address (snd (hashes c p)) (zlen p) t) = Val tt s' /\ a_mem s' = upd m a' (Ent e') /\
    t_status e' = st /\ t_info e' = address /\ t_name e' = p /\
    Dir c W (a_mem s') (a_dir s') (a_next s') /\ E c (a_mem s') (a_dir s') a' e' /\ a_next s <= a_next s' /\
    (forall t x, In x (concat (a_dir s' t)) <-> In x (concat (a_dir s t)) \/ (x = a' /\ t = fst (hashes c p))) /\
    ((m a' = Free /\ a' = a_next s) \/ exists e0, E c m (a_dir s) a' e0 /\ ~ live e0) /\
    a_bin s' = a' /\ a_info s' = address /\ a_stat s' = a_stat s /\ a_hash s' = snd (hashes c p)).
  { intros l1 a l2 e0 HC M NL NF. assert (HI : In a (concat (a_dir s t))) by (rewrite HC; apply in_or_app; right; left; reflexivity).
    exists a, e. eexists. split; [reflexivity|]. cbn [a_mem a_dir a_next a_bin a_info a_stat a_hash]. split; [reflexivity|]. split; [reflexivity|]. split; [reflexivity|]. split; [reflexivity|].
    split. { change (Dir c W (upd m a (Ent e)) (a_dir s) (a_next s)). eapply (Dir_reuse m (a_dir s) (a_next s) e t l1 a l2 e0); eauto. }
    split. { split; [exact HI|]. rewrite Z.eqb_refl. reflexivity. }
    split; [lia|]. split. { intros t' x. split; [auto|]. intros [H|[-> ->]]; [exact H|exact HI]. }
    split. { right. exists e0. split; [eapply dir_E; eauto|exact NL]. } auto. }
  assert (NEW : forall dir', (forall t', t' <> t -> concat (dir' t') = concat (a_dir s t')) -> concat (dir' t) = concat (a_dir s t) ++ [a_next s] ->
     (forall x e', In x (concat (a_dir s t)) -> m x = Ent e' -> key (t_name e') = key p -> t_status e' <> 11) ->
     exists a' e' s', Val tt (mka (fun k => if k =? a_next s then Ent e else m k) dir' (a_next s + 1) (a_stat s) (a_next s) address (snd (hashes c p)) (zlen p) t) = Val tt s' /\ a_mem s' = upd m a' (Ent e') /\
    t_status e' = st /\ t_info e' = address /\ t_name e' = p /\
    Dir c W (a_mem s') (a_dir s') (a_next s') /\ E c (a_mem s') (a_dir s') a' e' /\ a_next s <= a_next s' /\
    (forall t x, In x (concat (a_dir s' t)) <-> In x (concat (a_dir s t)) \/ (x = a' /\ t = fst (hashes c p))) /\
    ((m a' = Free /\ a' = a_next s) \/ exists e0, E c m (a_dir s) a' e0 /\ ~ live e0) /\
    a_bin s' = a' /\ a_info s' = address /\ a_stat s' = a_stat s /\ a_hash s' = snd (hashes c p)).
  { intros dir' HO HN NF.
    exists (a_next s), e. eexists. split; [reflexivity|]. cbn [a_mem a_dir a_next a_bin a_info a_stat a_hash]. split; [reflexivity|]. split; [reflexivity|]. split; [reflexivity|]. split; [reflexivity|].
    split. { change (Dir c W (upd m (a_next s) (Ent e)) dir' (a_next s + 1)). eapply (Dir_fresh m (a_dir s) dir' (a_next s) e t); eauto.
      intros x e' HE HK HS. destruct HE as [HE1 HE2]. rewrite (hashes_key c _ _ HK) in HE1. eapply NF; eauto. }
    split. { split; [cbn; fold t; rewrite HN; apply in_or_app; right; left; reflexivity|]. rewrite Z.eqb_refl. reflexivity. }
    split; [lia|]. split.
    { intros t' x. fold t. destruct (Z.eq_dec t' t) as [->|N].
      - rewrite HN, in_app_iff. cbn. intuition congruence.
      - rewrite (HO t' N). intuition congruence. }
    split. { left. split; [|reflexivity]. destruct (m (a_next s)) eqn:Q; [reflexivity| |]; assert (0 < a_next s < a_next s) by (apply (k_low _ _ _ _ _ D); fold m; congruence); lia. } auto. }
  destruct (bin_with_space m size (a_dir s t)) as [n|] eqn:BW.
  - destruct (bws_some _ _ _ _ BW) as (b1 & b & b2 & EB & LB & (x & ex & X1 & X2 & X3 & X4) & XB).
    assert (NB : nth n (a_dir s t) [] = b) by (rewrite EB, <- LB; apply nth_middle). rewrite NB.
    assert (IB : forall y, In y b -> In y (concat (a_dir s t))) by (intros y Hy; rewrite EB, concat_app; cbn; apply in_or_app; right; apply in_or_app; left; exact Hy).
    destruct (slot_in m true size (snd (hashes c p)) p b) as [a|] eqn:SL.
    + destruct (slot_some _ _ _ _ _ _ _ SL) as (c1 & c2 & e0 & E1 & E2 & E3 & E4).
      assert (HC : concat (a_dir s t) = (concat b1 ++ c1) ++ a :: (c2 ++ concat b2)) by (rewrite EB, concat_app; cbn; rewrite E1, <- !app_assoc; reflexivity).
      eapply (FIN _ a _ e0 HC E2).
      * eapply REUSE; [exact HC|exact E2|]. destruct E3 as [(_ & [Q|Q] & _)|Q]; auto.
      * intros y e' Hy M K S. apply in_app_or in Hy. destruct Hy as [Hy|Hy].
        -- assert (Hy' : In y (concat (a_dir s t))) by (rewrite HC; apply in_or_app; left; apply in_or_app; left; exact Hy). pose proof (XB y e' Hy M S). pose proof (KS y e' Hy' M K). lia.
        -- assert (Hy' : In y (concat (a_dir s t))) by (rewrite HC; apply in_or_app; left; apply in_or_app; right; exact Hy). specialize (E4 y e' Hy M). rewrite (KH y e' Hy' M K S) in E4. discriminate.
    + exfalso. pose proof (SZ x ex (IB x X1) X2 X3). apply (slot_none _ _ _ _ _ _ SL x ex X1 X2 eq_refl X3). unfold size in *. lia.
  - pose proof (bws_none _ _ _ BW) as XB.
    assert (NF : forall x e', In x (concat (a_dir s t)) -> m x = Ent e' -> key (t_name e') = key p -> t_status e' <> 11).
    { intros x e' Hx M K S. pose proof (XB x e' Hx M S). pose proof (KS x e' Hx M K). lia. }
    destruct (a_dir s t) as [|bb bs] eqn:EB.
    + cbn [length pred nth slot_in Nat.eqb negb]. rewrite andb_false_r. cbn [firstn app].
      apply NEW; [|rewrite Z.eqb_refl; reflexivity|exact NF]. intros t' N. apply Z.eqb_neq in N. rewrite N. reflexivity.
    + destruct (exists_last (l := bb :: bs)) as (b1 & b & EL); [discriminate|]. rewrite EL in EB. rewrite EL in *. clear EL bb bs.
      assert (PL : pred (length (b1 ++ [b])) = length b1) by (rewrite app_length; cbn; lia). rewrite PL.
      assert (NB : nth (length b1) (b1 ++ [b]) [] = b) by apply nth_middle. rewrite NB.
      assert (CC : concat (b1 ++ [b]) = concat b1 ++ b) by (rewrite concat_app; cbn; rewrite app_nil_r; reflexivity).
      destruct (slot_in m false size (snd (hashes c p)) p b) as [a|] eqn:SL.
      * destruct (slot_some _ _ _ _ _ _ _ SL) as (c1 & c2 & e0 & E1 & E2 & E3 & E4).
        assert (HC : concat (b1 ++ [b]) = (concat b1 ++ c1) ++ a :: c2) by (rewrite CC, E1, <- !app_assoc; reflexivity).
        eapply (FIN _ a _ e0 HC E2).
        -- eapply REUSE; [exact HC|exact E2|]. destruct E3 as [(Q & _)|Q]; [discriminate|auto].
        -- intros y e' Hy M K. apply (NF y e'); auto. rewrite HC. apply in_or_app. left. exact Hy.
      * assert (LN : (length (b1 ++ [b]) =? 0)%nat = false) by (rewrite app_length; cbn; apply Nat.eqb_neq; lia). rewrite LN. cbn [negb]. rewrite andb_true_r.
        destruct (fits m (d_isize c) size b).
        -- apply NEW; [intros t' N; apply Z.eqb_neq in N; rewrite N; reflexivity| |exact NF]. rewrite Z.eqb_refl.
           rewrite firstn_app, firstn_all, Nat.sub_diag. cbn [firstn]. rewrite app_nil_r. replace (skipn (S (length b1)) (b1 ++ [b])) with (@nil (list Z)) by (symmetry; apply skipn_all2; rewrite app_length; cbn; lia).
           rewrite !concat_app. cbn. rewrite !app_nil_r, app_assoc. reflexivity.
        -- apply NEW; [intros t' N; apply Z.eqb_neq in N; rewrite N; reflexivity| |exact NF]. rewrite Z.eqb_refl.
           rewrite firstn_all2 by (rewrite app_length; cbn; lia). rewrite !concat_app. cbn. reflexivity.
Qed.
End INS.
