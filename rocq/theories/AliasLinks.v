(** * Records and alias chains after a change of the file. *)
From Coq Require Import ZArith List Lia Bool.
From Verif Require Import Base PackModel HashModel FileModel FileLemmas FileSpec AliasModel AliasSpec AliasProofs AliasIns.
Import ListNotations.
Open Scope Z_scope.

Definition ch_set (ch : list Z -> list Z) (q : list Z) (l : list Z) : list Z -> list Z := fun q0 => if same q0 q then l else ch q0.
Lemma ch_set_eq ch q l : ch_set ch q l q = l. Proof. unfold ch_set. rewrite same_refl. reflexivity. Qed.
Lemma ch_set_ne ch q l q' : q' <> q -> ch_set ch q l q' = ch q'. Proof. intros H. apply same_false in H. unfold ch_set. rewrite H. reflexivity. Qed.

(** Info blocks stay, with their names. *)
Definition kept (m m' : Z -> cell) : Prop := forall z n, m z = Inf n -> exists n', m' z = Inf n' /\ n_name n' = n_name n.
Lemma chain_frame m m' q : kept m m' -> forall l a, (forall x e, In x l -> m x = Ent e -> m' x = Ent e) -> chain_to m q a l -> chain_to m' q a l.
Proof.
  intros HK. induction l as [|x l IH]; intros a HL HC; cbn [chain_to] in *.
  - destruct HC as (n & H1 & H2). destruct (HK a n H1) as (n' & H3 & H4). exists n'. split; [exact H3|congruence].
  - destruct HC as (-> & e & H1 & H2 & H3). split; [reflexivity|]. exists e. split; [apply HL; [left; reflexivity|exact H1]|]. split; [exact H2|]. apply IH; [|exact H3]. intros y ey Hy. apply HL. right. exact Hy.
Qed.
Lemma head_frame m m' q h l : kept m m' -> (forall x e, In x l -> m x = Ent e -> m' x = Ent e) -> head_ok m q h l -> head_ok m' q h l.
Proof. intros H1 H2 [H|H]; [left; exact H|right; eapply chain_frame; eauto]. Qed.

Section LINKS.
Variables (c : dcfg) (W : Z).

Lemma Links_frame m dir m' dir' b b' ch q l :
  Links c m dir b ch ->
  (forall z n, m z = Inf n -> exists n', m' z = Inf n' /\ n_name n' = n_name n /\ (key (n_name n) <> q \/ n_status n = 11 -> n' = n)) ->
  (forall x e, E c m dir x e -> (t_status e = 1 /\ key (t_name e) <> q) \/ (exists q', q' <> q /\ In x (ch q')) -> E c m' dir' x e) ->
  (forall q', q' <> q -> recs b' q' = recs b q' /\ aliases b' q' = aliases b q') ->
  (forall x e, E c m' dir' x e -> t_status e = 1 -> (E c m dir x e /\ key (t_name e) <> q) \/ (key (t_name e) = q /\ recs b' q <> None)) ->
  (forall x e, E c m' dir' x e -> t_status e = 2 -> In x l \/ exists q', q' <> q /\ In x (ch q')) ->
  (forall x e, E c m' dir' x e -> t_status e = 11 -> E c m dir x e \/ exists n, m' (t_info e) = Inf n /\ n_status n = 11 /\ n_head n = 0) ->
  (forall v, recs b' q = Some v -> exists a e n, E c m' dir' a e /\ t_status e = 1 /\ key (t_name e) = q /\ m' (t_info e) = Inf n /\ n_status n = 1 /\ key (n_name n) = q /\
     n_hash n = snd (hashes c q) /\ v = (n_type n, n_data n) /\ head_ok m' q (n_head n) l) ->
  (forall x, In x l -> recs b' q <> None /\ exists e, E c m' dir' x e /\ t_status e = 2) ->
  map (nm m') l = aliases b' q ->
  NoDup (map fst (aka b')) -> (forall x q', In (x, q') (aka b') -> recs b' x = None) ->
  Links c m' dir' b' (ch_set ch q l).
Proof.
  intros LK F1 F2 F3 F4 F5 F6 F7 F8 F9 F10 F11.
  assert (KP : kept m m') by (intros z n Hz; destruct (F1 z n Hz) as (n' & H1 & H2 & _); eauto).
  assert (CH : forall q', q' <> q -> forall x e, In x (ch q') -> m x = Ent e -> m' x = Ent e).
  { intros q' N x e Hx Mx. destruct (k_ch _ _ _ _ _ LK q' x Hx) as (_ & e' & HE & _). assert (e' = e) by (destruct HE; congruence). subst e'.
    apply (F2 x e HE). right. exists q'. auto. }
  constructor.
  - intros q' v Hv. destruct (list_eq_dec Z.eq_dec q' q) as [->|N].
    + destruct (F7 v Hv) as (a & e & n & H). exists a, e, n. unfold Rec. rewrite ch_set_eq. exact H.
    + destruct (F3 q' N) as [R1 R2]. rewrite R1 in Hv. destruct (k_rec _ _ _ _ _ LK q' v Hv) as (a & e & n & (A1 & A2 & A3 & A4 & A5 & A6 & A7 & A8 & A9)).
      exists a, e, n. unfold Rec. rewrite (ch_set_ne _ _ _ _ N). split; [apply F2; [exact A1|left; split; [exact A2|congruence]]|]. split; [exact A2|]. split; [exact A3|].
      split. { destruct (F1 _ _ A4) as (n' & H1 & H2 & H3). rewrite H1, H3; [reflexivity|left; congruence]. }
      split; [exact A5|]. split; [exact A6|]. split; [exact A7|]. split; [exact A8|]. eapply head_frame; eauto.
  - intros a e HE HS. destruct (F4 a e HE HS) as [[H1 H2]|[H1 H2]]; [|congruence]. destruct (F3 _ H2) as [R1 _]. rewrite R1. eapply (k_prim _ _ _ _ _ LK); eauto.
  - intros a e HE HS. destruct (F5 a e HE HS) as [H|(q' & N & H)]; [exists q; rewrite ch_set_eq; exact H|exists q'; rewrite (ch_set_ne _ _ _ _ N); exact H].
  - intros q' a Ha. destruct (list_eq_dec Z.eq_dec q' q) as [->|N].
    + rewrite ch_set_eq in Ha. apply F8, Ha.
    + rewrite (ch_set_ne _ _ _ _ N) in Ha. destruct (F3 q' N) as [R1 _]. rewrite R1. destruct (k_ch _ _ _ _ _ LK q' a Ha) as (H1 & e & H2 & H3). split; [exact H1|]. exists e. split; [|exact H3]. apply F2; [exact H2|right; eauto].
  - intros q'. destruct (list_eq_dec Z.eq_dec q' q) as [->|N].
    + rewrite ch_set_eq. exact F9.
    + rewrite (ch_set_ne _ _ _ _ N). destruct (F3 q' N) as [_ R2]. rewrite R2, <- (k_aka _ _ _ _ _ LK q'). apply map_ext_in. intros x Hx.
      destruct (k_ch _ _ _ _ _ LK q' x Hx) as (_ & e & [_ HE] & _). unfold nm. rewrite HE, (CH q' N x e Hx HE). reflexivity.
  - intros a e HE HS. destruct (F6 a e HE HS) as [H|H]; [|exact H]. destruct (k_dead _ _ _ _ _ LK a e H HS) as (n & H1 & H2 & H3).
    destruct (F1 _ _ H1) as (n' & Q1 & Q2 & Q3). rewrite (Q3 (or_intror H2)) in Q1. eauto.
  - exact F10.
  - exact F11.
Qed.

(** ** The entries after a change *)
Lemma E_other m dir z x a e : (forall e', m z <> Ent e') -> (forall e', x <> Ent e') -> (E c (upd m z x) dir a e <-> E c m dir a e).
Proof.
  intros H1 H2. unfold E. destruct (Z.eq_dec a z) as [->|N]; [rewrite upd_eq|rewrite upd_ne by exact N; tauto]. split; intros [Q1 Q2]; exfalso; [eapply H2, Q2|eapply H1, Q2].
Qed.
Lemma E_same m dir z e0 e1 a e : E c m dir z e0 -> t_name e1 = t_name e0 -> (E c (upd m z (Ent e1)) dir a e <-> (a = z /\ e = e1) \/ (a <> z /\ E c m dir a e)).
Proof.
  intros [H1 H2] HN. unfold E. destruct (Z.eq_dec a z) as [->|N]; [rewrite upd_eq|rewrite upd_ne by exact N; tauto]. split.
  - intros [Q1 Q2]. left. inversion Q2. auto.
  - intros [[_ ->]|[Q _]]; [|congruence]. rewrite HN. auto.
Qed.
Lemma E_ins m dir dir' nx z e1 a e : Dir c W m dir nx -> (forall t x, In x (concat (dir' t)) <-> In x (concat (dir t)) \/ (x = z /\ t = fst (hashes c (t_name e1)))) ->
  (E c (upd m z (Ent e1)) dir' a e <-> (a = z /\ e = e1) \/ (a <> z /\ E c m dir a e)).
Proof.
  intros D H. unfold E. rewrite H. destruct (Z.eq_dec a z) as [->|N]; [rewrite upd_eq|rewrite upd_ne by exact N]. 
  - split; [intros [_ Q]; left; inversion Q; auto|]. intros [[_ ->]|[Q _]]; [auto|congruence].
  - split; [intros [[Q1|[Q1 _]] Q2]; [auto|congruence]|]. intros [[Q _]|[_ Q]]; [congruence|tauto].
Qed.
Lemma ch_disj m dir b ch q q' x : Links c m dir b ch -> In x (ch q) -> In x (ch q') -> q = q'.
Proof.
  intros LK H1 H2. destruct (k_ch _ _ _ _ _ LK q x H1) as (_ & e & HE & HS).
  assert (A1 : In (key (t_name e), q) (aka b)) by (apply (ali_E c _ _ _ _ LK); eauto 6).
  assert (A2 : In (key (t_name e), q') (aka b)) by (apply (ali_E c _ _ _ _ LK); eauto 6).
  apply (primary_in _ _ _ (k_ndf _ _ _ _ _ LK)) in A1. apply (primary_in _ _ _ (k_ndf _ _ _ _ _ LK)) in A2. congruence.
Qed.

(** ** The calls *)
Section OPS.
Variables (m : Z -> cell) (dir : Z -> list (list Z)) (nx : Z) (b : book) (ch : list Z -> list Z).
Hypothesis D : Dir c W m dir nx.
Hypothesis LK : Links c m dir b ch.
Variables (q : list Z) (v : Z * list Z) (a : Z) (e : entry) (n : info).
Hypothesis R : Rec c m dir ch q v a e n.
Let ia := t_info e.

Lemma own_ent : E c m dir a e. Proof. apply R. Qed.
Lemma own_inf : m ia = Inf n. Proof. apply R. Qed.
Lemma ia_not_ent e' : m ia <> Ent e'. Proof. rewrite own_inf. discriminate. Qed.
Lemma own_recs : recs b q = Some v.
Proof.
  destruct R as (R1 & R2 & R3 & R4 & R5 & R6 & R7 & R8 & R9). pose proof (k_prim _ _ _ _ _ LK a e R1 R2) as H. rewrite R3 in H. destruct (recs b q) as [v'|] eqn:Q; [|congruence].
  destruct (k_rec _ _ _ _ _ LK q v' Q) as (a' & e' & n' & (A1 & A2 & A3 & A4 & A5 & A6 & A7 & A8 & A9)).
  destruct (E_uniq c W _ _ _ D a a' e e' R1 A1) as [_ <-]; [congruence|left; exact R2|left; exact A2|]. assert (n' = n) by congruence. subst n'. congruence.
Qed.
Lemma not_alias q' : ~ In (q, q') (aka b).
Proof. intros H. apply (k_apart _ _ _ _ _ LK) in H. rewrite own_recs in H. discriminate. Qed.
Lemma own_only x e' : E c m dir x e' -> t_status e' = 1 -> x <> a -> key (t_name e') <> q.
Proof.
  intros HE HS N K. apply N. destruct R as (R1 & R2 & R3 & _). eapply (E_uniq c W _ _ _ D x a e' e HE R1); [congruence|left; exact HS|left; exact R2].
Qed.
Lemma not_ch q' : ~ In a (ch q').
Proof. intros H. destruct (k_ch _ _ _ _ _ LK q' a H) as (_ & e' & HE & HS). destruct R as ((_ & R1) & R2 & _), HE as [_ HE]. assert (e' = e) by congruence. subst. congruence. Qed.

(** The info block [ia] changes, not its name. *)
Lemma info_kept n' : n_name n' = n_name n -> forall z n0, m z = Inf n0 -> exists n1, upd m ia (Inf n') z = Inf n1 /\ n_name n1 = n_name n0 /\ (key (n_name n0) <> q \/ n_status n0 = 11 -> n1 = n0).
Proof.
  intros H z n0 Hz. destruct (Z.eq_dec z ia) as [->|N].
  - rewrite upd_eq. rewrite own_inf in Hz. inversion Hz; subst n0. exists n'. split; [reflexivity|]. split; [exact H|]. destruct R as (_ & _ & _ & _ & R5 & R6 & _). intros [Q|Q]; [contradiction|lia].
  - rewrite upd_ne by exact N. eauto.
Qed.

(** Data rewritten in place. *)
Lemma L_data n' : n_name n' = n_name n -> n_status n' = n_status n -> n_hash n' = n_hash n -> n_head n' = n_head n ->
  Links c (upd m ia (Inf n')) dir (put_rec q (Some (n_type n', n_data n')) b) (ch_set ch q (ch q)).
Proof.
  intros H1 H2 H3 H4. pose proof own_recs as OR. destruct R as (R1 & R2 & R3 & R4 & R5 & R6 & R7 & R8 & R9).
  assert (EE : forall x ex, E c (upd m ia (Inf n')) dir x ex <-> E c m dir x ex) by (intros; apply E_other; [apply ia_not_ent|discriminate]).
  pose proof (info_kept n' H1) as IK.
  eapply (Links_frame m dir); [exact LK|exact IK| | | | | | | | | |].
  - intros x ex HE _. apply EE, HE.
  - intros q' N. cbn. apply same_false in N. rewrite N. auto.
  - intros x ex HE HS. apply EE in HE. destruct (Z.eq_dec x a) as [->|N]; [right|left; split; [exact HE|eapply own_only; eauto]].
    assert (ex = e) by (destruct HE, R1; congruence). subst ex. split; [exact R3|]. cbn. rewrite same_refl. discriminate.
  - intros x ex HE HS. apply EE in HE. destruct (k_ali _ _ _ _ _ LK x ex HE HS) as (q' & Hq'). destruct (list_eq_dec Z.eq_dec q' q) as [->|N]; [left; exact Hq'|right; eauto].
  - intros x ex HE HS. left. apply EE, HE.
  - intros v' Hv. cbn in Hv. rewrite same_refl in Hv. inversion Hv; subst v'. exists a, e, n'. split; [apply EE, R1|]. split; [exact R2|]. split; [exact R3|]. split; [apply upd_eq|].
    split; [congruence|]. split; [congruence|]. split; [congruence|]. split; [reflexivity|]. rewrite H4. eapply head_frame; [|  |exact R9].
    + intros z n0 Hz. destruct (IK z n0 Hz) as (n1 & Q1 & Q2 & _). eauto.
    + intros x ex Hx Mx. rewrite upd_ne; [exact Mx|]. intros ->. apply (ia_not_ent ex Mx).
  - intros x Hx. cbn. rewrite same_refl. split; [discriminate|]. destruct (k_ch _ _ _ _ _ LK q x Hx) as (_ & ex & HE & HS). exists ex. split; [apply EE, HE|exact HS].
  - change (aliases (put_rec q (Some (n_type n', n_data n')) b) q) with (aliases b q). rewrite <- (k_aka _ _ _ _ _ LK q). apply map_ext_in. intros x Hx.
    destruct (k_ch _ _ _ _ _ LK q x Hx) as (_ & ex & [_ HE] & _). unfold nm. rewrite upd_ne; [reflexivity|]. intros ->. apply (ia_not_ent ex HE).
  - apply (k_ndf _ _ _ _ _ LK).
  - intros x q' H. cbn in H |- *. destruct (same x q) eqn:Q; [|eapply (k_apart _ _ _ _ _ LK); eauto]. apply same_true in Q. subst x. exfalso. eapply not_alias; eauto.
Qed.

(** Data written to a new place. *)
Lemma L_move n' n1 : m nx = Free -> n_name n1 = n_name n -> n_name n' = n_name n -> n_status n' = 1 -> n_hash n' = n_hash n -> n_head n' = n_head n ->
  Links c (upd (upd (upd m ia (Inf n1)) a (Ent (with_tinfo nx e))) nx (Inf n')) dir (put_rec q (Some (n_type n', n_data n')) b) (ch_set ch q (ch q)).
Proof.
  intros HF H0 H1 H2 H3 H4. pose proof own_recs as OR. pose proof own_only as OO. pose proof not_ch as NC. destruct R as (R1 & R2 & R3 & R4 & R5 & R6 & R7 & R8 & R9). fold ia in R4.
  assert (NA : nx <> a) by (intros Q; destruct R1; congruence). assert (NI : nx <> ia) by congruence. assert (AI : a <> ia) by (intros Q; destruct R1; congruence).
  set (m1 := upd m ia (Inf n1)). set (m2 := upd m1 a (Ent (with_tinfo nx e))). set (m3 := upd m2 nx (Inf n')).
  assert (E1 : forall x ex, E c m1 dir x ex <-> E c m dir x ex) by (intros; apply E_other; [apply ia_not_ent|discriminate]).
  assert (E2 : forall x ex, E c m2 dir x ex <-> (x = a /\ ex = with_tinfo nx e) \/ (x <> a /\ E c m dir x ex)).
  { intros x ex. unfold m2. rewrite (E_same m1 dir a e (with_tinfo nx e) x ex); [rewrite E1; reflexivity|apply E1; exact R1|reflexivity]. }
  assert (EE : forall x ex, E c m3 dir x ex <-> (x = a /\ ex = with_tinfo nx e) \/ (x <> a /\ E c m dir x ex)).
  { intros x ex. unfold m3. rewrite E_other; [apply E2| |discriminate]. intros e'. unfold m2, m1. rewrite !upd_ne by congruence. congruence. }
  assert (OTH : forall x, x <> ia -> x <> a -> x <> nx -> m3 x = m x) by (intros x X1 X2 X3; unfold m3, m2, m1; rewrite !upd_ne by assumption; reflexivity).
  assert (IK : forall z n0, m z = Inf n0 -> exists n2, m3 z = Inf n2 /\ n_name n2 = n_name n0 /\ (key (n_name n0) <> q \/ n_status n0 = 11 -> n2 = n0)).
  { intros z n0 Hz. destruct (Z.eq_dec z ia) as [->|N].
    - unfold m3, m2, m1. rewrite upd_ne by congruence. rewrite upd_ne by congruence. rewrite upd_eq. exists n1. rewrite R4 in Hz. inversion Hz; subst. split; [reflexivity|]. split; [exact H0|]. intros [Q|Q]; [contradiction|lia].
    - rewrite OTH; [eauto|exact N| |]; intros ->; [destruct R1|]; congruence. }
  assert (KC : forall x ex, m x = Ent ex -> x <> a -> m3 x = Ent ex) by (intros x ex Mx N; rewrite OTH; [exact Mx| |exact N|]; intros ->; congruence).
  assert (NCH : forall x q', In x (ch q') -> x <> a) by (intros x q' Hx ->; eapply NC; eauto).
  eapply (Links_frame m dir); [exact LK|exact IK| | | | | | | | | |].
  - intros x ex HE Hx. apply EE. right. split; [|exact HE]. intros ->. destruct Hx as [[_ Hx]|(q' & _ & Hx)]; [|eapply NC; eauto]. apply Hx. assert (ex = e) by (destruct HE, R1; congruence). congruence.
  - intros q' N. cbn. apply same_false in N. rewrite N. auto.
  - intros x ex HE HS. apply EE in HE. destruct HE as [[-> ->]|[N HE]]; [right|left; split; [exact HE|eapply OO; eauto]]. split; [exact R3|]. cbn. rewrite same_refl. discriminate.
  - intros x ex HE HS. apply EE in HE. destruct HE as [[-> ->]|[N HE]]; [cbn in HS; congruence|]. destruct (k_ali _ _ _ _ _ LK x ex HE HS) as (q' & Hq'). destruct (list_eq_dec Z.eq_dec q' q) as [->|N']; [left; exact Hq'|right; eauto].
  - intros x ex HE HS. apply EE in HE. destruct HE as [[-> ->]|[N HE]]; [cbn in HS; lia|left; exact HE].
  - intros v' Hv. cbn in Hv. rewrite same_refl in Hv. inversion Hv; subst v'. exists a, (with_tinfo nx e), n'. split; [apply EE; left; auto|]. split; [exact R2|]. split; [exact R3|]. split; [apply upd_eq|].
    split; [congruence|]. split; [congruence|]. split; [congruence|]. split; [reflexivity|]. rewrite H4. eapply head_frame; [|  |exact R9].
    + intros z n0 Hz. destruct (IK z n0 Hz) as (n2 & Q1 & Q2 & _). eauto.
    + intros x ex Hx Mx. apply KC; [exact Mx|eauto].
  - intros x Hx. cbn. rewrite same_refl. split; [discriminate|]. destruct (k_ch _ _ _ _ _ LK q x Hx) as (_ & ex & HE & HS). exists ex. split; [apply EE; right; eauto|exact HS].
  - change (aliases (put_rec q (Some (n_type n', n_data n')) b) q) with (aliases b q). rewrite <- (k_aka _ _ _ _ _ LK q). apply map_ext_in. intros x Hx.
    destruct (k_ch _ _ _ _ _ LK q x Hx) as (_ & ex & [_ HE] & _). unfold nm. rewrite HE, (KC x ex HE (NCH x q Hx)). reflexivity.
  - apply (k_ndf _ _ _ _ _ LK).
  - intros x q' H. cbn in H |- *. destruct (same x q) eqn:Q; [|eapply (k_apart _ _ _ _ _ LK); eauto]. apply same_true in Q. subst x. exfalso. eapply not_alias; eauto.
Qed.

(** A new alias of the record. *)
Lemma L_add dir' z ez p : (forall t x, In x (concat (dir' t)) <-> In x (concat (dir t)) \/ (x = z /\ t = fst (hashes c (t_name ez)))) ->
  (m z = Free \/ exists e0, E c m dir z e0 /\ ~ live e0) -> t_status ez = 2 -> key (t_name ez) = p ->
  recs b p = None -> primary_of b p = None -> t_info ez = (if n_head n =? 0 then ia else n_head n) ->
  Links c (upd (upd m z (Ent ez)) ia (Inf (with_head z n))) dir' (add_alias p q b) (ch_set ch q (z :: ch q)).
Proof.
  intros HD HZ HS HP RN PN HI. pose proof own_recs as OR. pose proof own_only as OO. pose proof not_ch as NC. pose proof (info_kept (with_head z n) eq_refl) as IK0. destruct R as (R1 & R2 & R3 & R4 & R5 & R6 & R7 & R8 & R9). fold ia in R4.
  assert (ZI : z <> ia) by (intros ->; destruct HZ as [HZ|(e0 & (_ & HZ) & _)]; congruence).
  assert (DEADZ : forall ex, E c m dir z ex -> ~ live ex) by (intros ex [_ M] L; destruct HZ as [HZ|(e0 & (_ & HZ) & HN)]; [congruence|]; assert (ex = e0) by congruence; subst; contradiction).
  set (m1 := upd m z (Ent ez)). set (m2 := upd m1 ia (Inf (with_head z n))).
  assert (E1 : forall x ex, E c m1 dir' x ex <-> (x = z /\ ex = ez) \/ (x <> z /\ E c m dir x ex)) by (intros; eapply E_ins; eauto).
  assert (EE : forall x ex, E c m2 dir' x ex <-> (x = z /\ ex = ez) \/ (x <> z /\ E c m dir x ex)).
  { intros x ex. unfold m2. rewrite E_other; [apply E1| |discriminate]. intros e'. unfold m1. rewrite upd_ne by congruence. congruence. }
  assert (IK : forall z0 n0, m z0 = Inf n0 -> exists n2, m2 z0 = Inf n2 /\ n_name n2 = n_name n0 /\ (key (n_name n0) <> q \/ n_status n0 = 11 -> n2 = n0)).
  { intros z0 n0 Hz. destruct (IK0 z0 n0 Hz) as (n2 & Q1 & Q2). exists n2. split; [|exact Q2]. unfold m2, m1. destruct (Z.eq_dec z0 ia) as [->|N]; [rewrite upd_eq in *; exact Q1|].
    rewrite upd_ne in Q1 by exact N. rewrite upd_ne by exact N. rewrite upd_ne; [exact Q1|]. intros ->. destruct HZ as [HZ|(e0 & (_ & HZ) & _)]; congruence. }
  assert (KP : kept m m2) by (intros z0 n0 Hz; destruct (IK z0 n0 Hz) as (n2 & Q1 & Q2 & _); eauto).
  assert (LZ : forall x ex, E c m dir x ex -> live ex -> x <> z) by (intros x ex HE L ->; eapply DEADZ; eauto).
  assert (CHZ : forall q' x, In x (ch q') -> exists ex, E c m dir x ex /\ t_status ex = 2 /\ x <> z /\ m2 x = Ent ex).
  { intros q' x Hx. destruct (k_ch _ _ _ _ _ LK q' x Hx) as (_ & ex & HE & HSx). assert (x <> z) by (eapply LZ; eauto; right; exact HSx). exists ex. split; [exact HE|]. split; [exact HSx|]. split; [assumption|].
    apply (proj2 (EE x ex)). right. auto. }
  eapply (Links_frame m dir); [exact LK|exact IK| | | | | | | | | |].
  - intros x ex HE Hx. apply EE. right. split; [|exact HE]. destruct Hx as [[Hx _]|(q' & _ & Hx)]; [eapply LZ; eauto; left; exact Hx|]. destruct (CHZ q' x Hx) as (_ & _ & _ & Q & _). exact Q.
  - intros q' N. split; [reflexivity|]. unfold aliases, add_alias. cbn [aka filter snd]. assert (Q : same q q' = false) by (apply same_false; congruence). rewrite Q. reflexivity.
  - intros x ex HE HSx. apply EE in HE. destruct HE as [[-> ->]|[N HE]]; [congruence|]. destruct (Z.eq_dec x a) as [->|N']; [right|left; split; [exact HE|eapply OO; eauto]].
    assert (ex = e) by (destruct HE, R1; congruence). subst ex. split; [exact R3|]. cbn. congruence.
  - intros x ex HE HSx. apply EE in HE. destruct HE as [[-> ->]|[N HE]]; [left; left; reflexivity|]. destruct (k_ali _ _ _ _ _ LK x ex HE HSx) as (q' & Hq'). destruct (list_eq_dec Z.eq_dec q' q) as [->|N']; [left; right; exact Hq'|right; eauto].
  - intros x ex HE HSx. apply EE in HE. destruct HE as [[-> ->]|[N HE]]; [lia|left; exact HE].
  - intros v' Hv. cbn in Hv. rewrite OR in Hv. inversion Hv; subst v'. exists a, e, (with_head z n).
    assert (NZA : a <> z) by (eapply LZ; eauto; left; exact R2).
    split; [apply EE; right; auto|]. split; [exact R2|]. split; [exact R3|]. split; [unfold m2; apply upd_eq|].
    split; [exact R5|]. split; [exact R6|]. split; [exact R7|]. split; [exact R8|]. right. cbn [chain_to]. split; [reflexivity|]. exists ez. split; [apply (proj2 (EE z ez)); auto|]. split; [exact HS|]. rewrite HI.
    eapply chain_frame; [exact KP| |].
    + intros x ex Hx Mx. destruct (CHZ q x Hx) as (ex' & (_ & M') & _ & _ & Q). congruence.
    + destruct R9 as [[Q1 Q2]|Q1].
      * rewrite Q1, Q2. cbn. exists n. auto.
      * assert (n_head n <> 0). { intros Q0. rewrite Q0 in Q1. assert (M0 : m 0 <> Free). { destruct (ch q); cbn in Q1; [destruct Q1 as (n0 & Q1 & _); congruence|destruct Q1 as (<- & e0 & Q1 & _); congruence]. } apply (k_low _ _ _ _ _ D) in M0. lia. }
        apply Z.eqb_neq in H. rewrite H. exact Q1.
  - intros x [<-|Hx]; (split; [cbn; congruence|]).
    + exists ez. split; [apply EE; auto|exact HS].
    + destruct (CHZ q x Hx) as (ex & Q1 & Q2 & Q3 & _). exists ex. split; [apply EE; auto|exact Q2].
  - unfold aliases, add_alias. cbn [aka filter snd]. rewrite same_refl. cbn [map fst]. f_equal.
    + unfold nm. rewrite (proj2 (proj2 (EE z ez) (or_introl (conj eq_refl eq_refl)))). exact HP.
    + change (map fst (filter (fun x => same (snd x) q) (aka b))) with (aliases b q). rewrite <- (k_aka _ _ _ _ _ LK q). apply map_ext_in. intros x Hx. destruct (CHZ q x Hx) as (ex & (_ & Q1) & _ & _ & Q). unfold nm. rewrite Q1, Q. reflexivity.
  - cbn. constructor; [|apply (k_ndf _ _ _ _ _ LK)]. intros Q. apply in_map_iff in Q. destruct Q as ((x & q') & Q1 & Q2). cbn in Q1. subst x.
    apply (primary_in _ _ _ (k_ndf _ _ _ _ _ LK)) in Q2. congruence.
  - intros x q' [H|H]; [inversion H; subst; exact RN|]. eapply (k_apart _ _ _ _ _ LK); eauto.
Qed.


(** Aliases of the record become dead, the others ([l]) may be linked anew. *)
Lemma L_less m' h l b' :
  m' ia = Inf (with_head h n) -> (forall x, x <> ia -> ~ In x (ch q) -> m' x = m x) ->
  (forall x, In x l -> In x (ch q)) ->
  (forall x ex, In x l -> m x = Ent ex -> exists i, m' x = Ent (with_tinfo i ex)) ->
  (forall x ex, In x (ch q) -> ~ In x l -> m x = Ent ex -> m' x = Ent (dead_alias ex)) ->
  head_ok m' q h l ->
  (forall k, recs b' k = recs b k) -> aliases b' q = map (nm m) l -> (forall q', q' <> q -> aliases b' q' = aliases b q') ->
  NoDup (map fst (aka b')) -> (forall x, In x (aka b') -> In x (aka b)) ->
  Links c m' dir b' (ch_set ch q l) /\ Dir c W m' dir nx.
Proof.
  intros M1 M2 LS M3 M4 HH HR HA HA' ND HSUB. pose proof own_recs as OR. pose proof own_only as OO. pose proof not_ch as NC. destruct R as (R1 & R2 & R3 & R4 & R5 & R6 & R7 & R8 & R9). fold ia in R4.
  assert (CHE : forall q' x, In x (ch q') -> exists ex, E c m dir x ex /\ t_status ex = 2).
  { intros q' x Hx. destruct (k_ch _ _ _ _ _ LK q' x Hx) as (_ & H). exact H. }
  assert (CHI : forall q' x, In x (ch q') -> x <> ia) by (intros q' x Hx ->; destruct (CHE q' ia Hx) as (ex & (_ & Q) & _); congruence).
  (* every entry, before and after *)
  assert (FWD : forall x ex, E c m dir x ex -> (~ In x (ch q) /\ m' x = Ent ex) \/ (In x l /\ t_status ex = 2 /\ exists i, m' x = Ent (with_tinfo i ex)) \/ (In x (ch q) /\ ~ In x l /\ m' x = Ent (dead_alias ex))).
  { intros x ex HE. destruct (in_dec Z.eq_dec x (ch q)) as [Hx|Hx].
    - destruct (CHE q x Hx) as (ex' & HE' & HS). assert (ex' = ex) by (destruct HE, HE'; congruence). subst ex'. destruct (in_dec Z.eq_dec x l) as [Hl|Hl].
      + right. left. split; [exact Hl|]. split; [exact HS|]. apply M3; [exact Hl|apply HE].
      + right. right. split; [exact Hx|]. split; [exact Hl|]. apply M4; [exact Hx|exact Hl|apply HE].
    - left. split; [exact Hx|]. rewrite M2; [apply HE| |exact Hx]. intros ->. destruct HE; congruence. }
  assert (EN : forall x ex ex', E c m dir x ex -> m' x = Ent ex' -> t_name ex' = t_name ex -> E c m' dir x ex').
  { intros x ex ex' [Q1 Q2] Q3 Q4. split; [rewrite Q4; exact Q1|exact Q3]. }
  assert (BWD : forall x ex', E c m' dir x ex' -> exists ex, E c m dir x ex).
  { intros x ex' [Q1 Q2]. destruct (k_dir _ _ _ _ _ D _ _ Q1) as (ex & Q3 & _). exists ex. eapply dir_E; eauto. }
  assert (IK : forall z n0, m z = Inf n0 -> exists n2, m' z = Inf n2 /\ n_name n2 = n_name n0 /\ (key (n_name n0) <> q \/ n_status n0 = 11 -> n2 = n0)).
  { intros z n0 Hz. destruct (Z.eq_dec z ia) as [->|N].
    - rewrite R4 in Hz. inversion Hz; subst n0. exists (with_head h n). split; [exact M1|]. split; [reflexivity|]. intros [Q|Q]; [contradiction|lia].
    - rewrite M2; [eauto|exact N|]. intros Hx. destruct (CHE q z Hx) as (ex & (_ & Q) & _). congruence. }
  split.
  - eapply (Links_frame m dir); [exact LK|exact IK| | | | | | | | | |].
    + intros x ex HE Hx. assert (NI : ~ In x (ch q)).
      { intros Hq. destruct Hx as [[Hx _]|(q' & N & Hx)]; [|apply N; eapply ch_disj; eauto]. destruct (CHE q x Hq) as (ex' & HE' & HS). assert (ex' = ex) by (destruct HE, HE'; congruence). subst. lia. }
      destruct (FWD x ex HE) as [[_ Q]|[[Q _]|[Q _]]]; [|exfalso; apply NI, LS, Q|contradiction]. eapply EN; eauto.
    + intros q' N. split; [apply HR|apply HA', N].
    + intros x ex' HE' HS. destruct (BWD x ex' HE') as (ex & HE). destruct HE' as [HE1 HE2].
      destruct (FWD x ex HE) as [[_ Q]|[(_ & Q1 & i & Q)|(_ & _ & Q)]]; rewrite HE2 in Q; inversion Q; subst ex'; [|cbn in HS; lia|cbn in HS; lia].
      destruct (Z.eq_dec x a) as [->|N]; [right|left; split; [exact HE|eapply OO; eauto]]. assert (ex = e) by (destruct HE, R1; congruence). subst ex. split; [exact R3|]. rewrite HR. congruence.
    + intros x ex' HE' HS. destruct (BWD x ex' HE') as (ex & HE). destruct HE' as [HE1 HE2].
      destruct (FWD x ex HE) as [[NQ Q]|[(Q0 & Q1 & i & Q)|(_ & _ & Q)]]; rewrite HE2 in Q; inversion Q; subst ex'; [|left; exact Q0|cbn in HS; lia].
      destruct (k_ali _ _ _ _ _ LK x ex HE HS) as (q' & Hq'). right. exists q'. split; [|exact Hq']. intros ->. contradiction.
    + intros x ex' HE' HS. destruct (BWD x ex' HE') as (ex & HE). destruct HE' as [HE1 HE2].
      destruct (FWD x ex HE) as [[NQ Q]|[(Q0 & Q1 & i & Q)|(_ & _ & Q)]]; rewrite HE2 in Q; inversion Q; subst ex'; [left; exact HE|cbn in HS; lia|cbn in HS; lia].
    + intros v' Hv. rewrite HR, OR in Hv. inversion Hv; subst v'. exists a, e, (with_head h n).
      split. { destruct (FWD a e R1) as [[_ Q]|[[Q _]|[Q _]]]; [eapply EN; eauto|exfalso; eapply NC, LS, Q|exfalso; eapply NC, Q]. }
      split; [exact R2|]. split; [exact R3|]. split; [exact M1|]. split; [exact R5|]. split; [exact R6|]. split; [exact R7|]. split; [exact R8|exact HH].
    + intros x Hx. split; [rewrite HR; congruence|]. destruct (CHE q x (LS x Hx)) as (ex & HE & HS). destruct (M3 x ex Hx (proj2 HE)) as (i & Q). exists (with_tinfo i ex). split; [eapply EN; eauto|exact HS].
    + rewrite HA. apply map_ext_in. intros x Hx. destruct (CHE q x (LS x Hx)) as (ex & [_ HE] & _). destruct (M3 x ex Hx HE) as (i & Q). unfold nm. rewrite HE, Q. reflexivity.
    + exact ND.
    + intros x q' H. rewrite HR. eapply (k_apart _ _ _ _ _ LK); eauto.
  - eapply (Dir_map c W m); [exact D| |].
    + intros x Hx. destruct (Z.eq_dec x ia) as [->|N]; [apply (k_low _ _ _ _ _ D); congruence|]. destruct (in_dec Z.eq_dec x (ch q)) as [Hq|Hq].
      * destruct (CHE q x Hq) as (ex & (_ & Q) & _). apply (k_low _ _ _ _ _ D). congruence.
      * rewrite (M2 x N Hq) in Hx. apply (k_low _ _ _ _ _ D). exact Hx.
    + intros t x ex Hx Mx. pose proof (dir_E c W _ _ _ _ _ _ D Hx Mx) as HE. pose proof (E_ok c W _ _ _ D _ _ HE) as OK.
      destruct (FWD x ex HE) as [[NQ Q]|[(Q0 & Q1 & i & Q)|(Q0 & _ & Q)]]; rewrite Q; eexists; (split; [reflexivity|]).
      * split; [reflexivity|]. split; [exact OK|]. auto.
      * split; [reflexivity|]. split; [exact OK|]. split; [intros H; exact H|]. intros H. left. exact H.
      * split; [reflexivity|]. destruct OK as (K1 & K2 & K3 & K4 & K5). split; [|split; [intros [H|H]; cbn in H; lia|cbn; lia]].
        repeat split; auto; cbn; [tauto|congruence|lia].
Qed.

(** The record is deleted; it has no alias. *)
Lemma L_del : ch q = [] -> n_head n = 0 -> (name_words q <= W) ->
  Links c (upd (upd m a (Ent (with_tstatus 11 e))) ia (Inf (with_istatus 11 n))) dir (put_rec q None b) (ch_set ch q []) /\
  Dir c W (upd (upd m a (Ent (with_tstatus 11 e))) ia (Inf (with_istatus 11 n))) dir nx.
Proof.
  intros HC HN HW. pose proof own_recs as OR. pose proof own_only as OO. pose proof not_ch as NC. pose proof (info_kept (with_istatus 11 n) eq_refl) as IK0. destruct R as (R1 & R2 & R3 & R4 & R5 & R6 & R7 & R8 & R9). fold ia in R4.
  assert (AI : a <> ia) by (intros Q; destruct R1; congruence).
  set (m1 := upd m a (Ent (with_tstatus 11 e))). set (m2 := upd m1 ia (Inf (with_istatus 11 n))).
  assert (EE : forall x ex, E c m2 dir x ex <-> (x = a /\ ex = with_tstatus 11 e) \/ (x <> a /\ E c m dir x ex)).
  { intros x ex. unfold m2. rewrite E_other; [|intros e'; unfold m1; rewrite upd_ne by congruence; congruence|discriminate]. unfold m1. apply (E_same m dir a e); [exact R1|reflexivity]. }
  assert (IK : forall z0 n0, m z0 = Inf n0 -> exists n2, m2 z0 = Inf n2 /\ n_name n2 = n_name n0 /\ (key (n_name n0) <> q \/ n_status n0 = 11 -> n2 = n0)).
  { intros z0 n0 Hz. destruct (IK0 z0 n0 Hz) as (n2 & Q1 & Q2). exists n2. split; [|exact Q2]. unfold m2, m1. destruct (Z.eq_dec z0 ia) as [->|N]; [rewrite upd_eq in *; exact Q1|].
    rewrite upd_ne in Q1 by exact N. rewrite upd_ne by exact N. rewrite upd_ne; [exact Q1|]. intros ->. destruct R1; congruence. }
  split.
  - eapply (Links_frame m dir); [exact LK|exact IK| | | | | | | | | |].
    + intros x ex HE Hx. apply EE. right. split; [|exact HE]. intros ->. destruct Hx as [[_ Hx]|(q' & _ & Hx)]; [|eapply NC; eauto]. apply Hx. assert (ex = e) by (destruct HE, R1; congruence). congruence.
    + intros q' N. cbn. apply same_false in N. rewrite N. auto.
    + intros x ex HE HS. apply EE in HE. destruct HE as [[-> ->]|[N HE]]; [cbn in HS; lia|left; split; [exact HE|eapply OO; eauto]].
    + intros x ex HE HS. apply EE in HE. destruct HE as [[-> ->]|[N HE]]; [cbn in HS; lia|]. destruct (k_ali _ _ _ _ _ LK x ex HE HS) as (q' & Hq'). right. exists q'. split; [|exact Hq']. intros ->. rewrite HC in Hq'. contradiction.
    + intros x ex HE HS. apply EE in HE. destruct HE as [[-> ->]|[N HE]]; [right|left; exact HE]. exists (with_istatus 11 n). split; [apply upd_eq|]. auto.
    + intros v' Hv. cbn in Hv. rewrite same_refl in Hv. discriminate.
    + intros x [].
    + change (aliases (put_rec q None b) q) with (aliases b q). rewrite <- (k_aka _ _ _ _ _ LK q), HC. reflexivity.
    + apply (k_ndf _ _ _ _ _ LK).
    + intros x q' H. cbn in H |- *. destruct (same x q); [reflexivity|eapply (k_apart _ _ _ _ _ LK); eauto].
  - eapply (Dir_map c W m); [exact D| |].
    + intros x Hx. unfold m2, m1 in Hx. destruct (Z.eq_dec x ia) as [->|N]; [apply (k_low _ _ _ _ _ D); congruence|]. rewrite upd_ne in Hx by exact N.
      destruct (Z.eq_dec x a) as [->|N']; [apply (k_low _ _ _ _ _ D); destruct R1; congruence|]. rewrite upd_ne in Hx by exact N'. apply (k_low _ _ _ _ _ D). exact Hx.
    + intros t x ex Hx Mx. pose proof (dir_E c W _ _ _ _ _ _ D Hx Mx) as HE. pose proof (E_ok c W _ _ _ D _ _ HE) as OK. destruct (Z.eq_dec x a) as [->|N].
      * assert (ex = e) by (destruct R1; congruence). subst ex. exists (with_tstatus 11 e). split; [apply (proj2 (EE a _)); auto|]. split; [reflexivity|]. destruct OK as (K1 & K2 & K3 & K4 & K5).
        split; [|split; [intros [H|H]; cbn in H; lia|intros _; right; left; exact R2]]. split; [exact K1|]. split; [exact K2|]. split; [cbn; tauto|]. split; [intros _; apply K4; lia|]. intros _. cbn. rewrite K2.
        replace (numberLongsInBytes (zlen (t_name e))) with (name_words q); [exact HW|]. unfold name_words; rewrite <- R3. rewrite nlib by (unfold zlen; lia). unfold zlen. rewrite key_length. reflexivity.
      * exists ex. split; [apply (proj2 (EE x _)); auto|]. split; [reflexivity|]. split; [exact OK|]. auto.
Qed.
End OPS.

(** A new record. *)
Lemma L_new m dir nx dir' b ch z ez i n' : Dir c W m dir nx -> Links c m dir b ch ->
  (forall t x, In x (concat (dir' t)) <-> In x (concat (dir t)) \/ (x = z /\ t = fst (hashes c (t_name ez)))) ->
  (m z = Free \/ exists e0, E c m dir z e0 /\ ~ live e0) -> t_status ez = 1 -> t_info ez = i -> m i = Free -> i <> z ->
  recs b (key (t_name ez)) = None -> primary_of b (key (t_name ez)) = None ->
  n_status n' = 1 -> key (n_name n') = key (t_name ez) -> n_hash n' = snd (hashes c (t_name ez)) -> n_head n' = 0 ->
  Links c (upd (upd m z (Ent ez)) i (Inf n')) dir' (put_rec (key (t_name ez)) (Some (n_type n', n_data n')) b) (ch_set ch (key (t_name ez)) []).
Proof.
  intros D LK HD HZ HS HI HF NIZ RN PN N1 N2 N3 N4. set (q := key (t_name ez)) in *.
  assert (CQ : ch q = []). { destruct (ch q) as [|x l] eqn:Q; [reflexivity|]. destruct (k_ch _ _ _ _ _ LK q x) as [H _]; [rewrite Q; left; reflexivity|congruence]. }
  assert (LZ : forall x ex, E c m dir x ex -> live ex -> x <> z).
  { intros x ex [_ M] L ->. destruct HZ as [HZ|(e0 & (_ & HZ) & HN)]; [congruence|]. assert (ex = e0) by congruence. subst. contradiction. }
  set (m1 := upd m z (Ent ez)). set (m2 := upd m1 i (Inf n')).
  assert (EE : forall x ex, E c m2 dir' x ex <-> (x = z /\ ex = ez) \/ (x <> z /\ E c m dir x ex)).
  { intros x ex. unfold m2. rewrite E_other; [|intros e'; unfold m1; rewrite upd_ne by exact NIZ; congruence|discriminate]. eapply E_ins; eauto. }
  assert (IK : forall z0 n0, m z0 = Inf n0 -> m2 z0 = Inf n0).
  { intros z0 n0 Hz. unfold m2, m1. rewrite upd_ne by congruence. rewrite upd_ne; [exact Hz|]. intros ->. destruct HZ as [HZ|(e0 & (_ & HZ) & _)]; congruence. }
  assert (CHZ : forall q' x, In x (ch q') -> exists ex, E c m dir x ex /\ t_status ex = 2 /\ x <> z).
  { intros q' x Hx. destruct (k_ch _ _ _ _ _ LK q' x Hx) as (_ & ex & HE & HSx). assert (x <> z) by (eapply LZ; eauto; right; exact HSx). eauto. }
  eapply (Links_frame m dir); [exact LK| | | | | | | | | | |].
  - intros z0 n0 Hz. exists n0. auto.
  - intros x ex HE Hx. apply EE. right. split; [|exact HE]. destruct Hx as [[Hx _]|(q' & _ & Hx)]; [eapply LZ; eauto; left; exact Hx|]. destruct (CHZ q' x Hx) as (_ & _ & _ & Q). exact Q.
  - intros q' N. cbn. apply same_false in N. rewrite N. auto.
  - intros x ex HE HSx. apply EE in HE. destruct HE as [[-> ->]|[N HE]]; [right; split; [reflexivity|]; cbn; rewrite same_refl; discriminate|left; split; [exact HE|]].
    intros Q. apply (k_prim _ _ _ _ _ LK x ex HE HSx). congruence.
  - intros x ex HE HSx. apply EE in HE. destruct HE as [[-> ->]|[N HE]]; [lia|]. destruct (k_ali _ _ _ _ _ LK x ex HE HSx) as (q' & Hq'). right. exists q'. split; [|exact Hq']. intros ->. rewrite CQ in Hq'. contradiction.
  - intros x ex HE HSx. apply EE in HE. destruct HE as [[-> ->]|[N HE]]; [lia|left; exact HE].
  - intros v' Hv. cbn in Hv. rewrite same_refl in Hv. inversion Hv; subst v'. exists z, ez, n'. split; [apply EE; auto|]. split; [exact HS|]. split; [reflexivity|]. split; [rewrite HI; apply upd_eq|].
    split; [exact N1|]. split; [exact N2|]. split; [unfold q; rewrite hashes_of_key; exact N3|]. split; [reflexivity|]. left. auto.
  - intros x [].
  - change (aliases (put_rec q (Some (n_type n', n_data n')) b) q) with (aliases b q). rewrite <- (k_aka _ _ _ _ _ LK q), CQ. reflexivity.
  - apply (k_ndf _ _ _ _ _ LK).
  - intros x q' H. cbn in H |- *. destruct (same x q) eqn:Q; [|eapply (k_apart _ _ _ _ _ LK); eauto]. apply same_true in Q. subst x.
    apply (primary_in _ _ _ (k_ndf _ _ _ _ _ LK)) in H. congruence.
Qed.
End LINKS.
