(** * Invariant of a file with aliases, and look-ups. *)
From Coq Require Import ZArith List Lia Bool.
From Verif Require Import Base PackModel HashModel FileModel FileLemmas FileSpec AliasModel AliasSpec.
Import ListNotations.
Open Scope Z_scope.

Definition live (e : entry) : Prop := t_status e = 1 \/ t_status e = 2.
Definition nm (m : Z -> cell) (a : Z) : list Z := match m a with Ent e => key (t_name e) | _ => [] end.
(** From [a] through the alias entries [l] to an info block of the record [q]. *)
Fixpoint chain_to (m : Z -> cell) (q : list Z) (a : Z) (l : list Z) : Prop :=
  match l with
  | [] => exists n, m a = Inf n /\ key (n_name n) = q
  | x :: t => a = x /\ exists e, m x = Ent e /\ t_status e = 2 /\ chain_to m q (t_info e) t
  end.
Definition head_ok (m : Z -> cell) (q : list Z) (h : Z) (l : list Z) : Prop := (h = 0 /\ l = []) \/ chain_to m q h l.

Section INV.
Variable c : dcfg.
Variable W : Z.

Definition entry_ok (e : entry) : Prop :=
  t_hash e = snd (hashes c (t_name e)) /\ t_size e = numberLongsInBytes (zlen (t_name e)) /\
  In (t_status e) [1; 2; 11; 13] /\ (t_status e <> 13 -> t_len e = zlen (t_name e)) /\ (t_status e = 11 -> t_size e <= W).

Record Dir (m : Z -> cell) (dir : Z -> list (list Z)) (nx : Z) : Prop := mkDir {
  k_nx : 0 < nx;
  k_low : forall a, m a <> Free -> 0 < a < nx;
  k_dir : forall t a, In a (concat (dir t)) -> exists e, m a = Ent e /\ fst (hashes c (t_name e)) = t /\ entry_ok e;
  k_nd : forall t, NoDup (concat (dir t));
  k_live : forall t a a' e e', In a (concat (dir t)) -> In a' (concat (dir t)) -> m a = Ent e -> m a' = Ent e' ->
             key (t_name e) = key (t_name e') -> live e -> live e' -> a = a';
  k_first : forall t l1 a l2 e x e', concat (dir t) = l1 ++ a :: l2 -> m a = Ent e -> live e -> In x l1 -> m x = Ent e' ->
              key (t_name e) = key (t_name e') -> t_status e' <> 11 }.

(** Entry [e] at [a] of the directory. *)
Definition E (m : Z -> cell) (dir : Z -> list (list Z)) (a : Z) (e : entry) : Prop :=
  In a (concat (dir (fst (hashes c (t_name e))))) /\ m a = Ent e.
Lemma dir_E m dir nx t a e : Dir m dir nx -> In a (concat (dir t)) -> m a = Ent e -> E m dir a e.
Proof. intros D H1 H2. destruct (k_dir _ _ _ D t a H1) as (e' & H3 & H4 & _). rewrite H2 in H3. inversion H3; subst e'. rewrite <- H4 in H1. split; assumption. Qed.

(** The record [q] at entry [a], with the content [v]. *)
Definition Rec (m : Z -> cell) dir (ch : list Z -> list Z) (q : list Z) (v : Z * list Z) (a : Z) (e : entry) (n : info) : Prop :=
  E m dir a e /\ t_status e = 1 /\ key (t_name e) = q /\ m (t_info e) = Inf n /\ n_status n = 1 /\ key (n_name n) = q /\
  n_hash n = snd (hashes c q) /\ v = (n_type n, n_data n) /\ head_ok m q (n_head n) (ch q).

Record Links (m : Z -> cell) dir (b : book) (ch : list Z -> list Z) : Prop := mkLinks {
  k_rec : forall q v, recs b q = Some v -> exists a e n, Rec m dir ch q v a e n;
  k_prim : forall a e, E m dir a e -> t_status e = 1 -> recs b (key (t_name e)) <> None;
  k_ali : forall a e, E m dir a e -> t_status e = 2 -> exists q, In a (ch q);
  k_ch : forall q a, In a (ch q) -> recs b q <> None /\ exists e, E m dir a e /\ t_status e = 2;
  k_aka : forall q, map (nm m) (ch q) = aliases b q;
  k_dead : forall a e, E m dir a e -> t_status e = 11 -> exists n, m (t_info e) = Inf n /\ n_status n = 11 /\ n_head n = 0;
  k_ndf : NoDup (map fst (aka b));
  k_apart : forall x q, In (x, q) (aka b) -> recs b x = None }.

Definition Inv (s : ast) (b : book) : Prop :=
  Dir (a_mem s) (a_dir s) (a_next s) /\ (exists ch, Links (a_mem s) (a_dir s) b ch) /\ (a_stat s = 2 -> stale b = true).

(** ** Small facts *)
Lemma hashes_key p q : key p = key q -> hashes c p = hashes c q.
Proof. intros H. unfold hashes. rewrite (zhash_key _ _ p q H). reflexivity. Qed.
Lemma key_idem' p : key (key p) = key p.
Proof. unfold key. rewrite map_map. apply map_ext. intros x. apply toupper_idem. Qed.
Lemma hashes_of_key p : hashes c (key p) = hashes c p.
Proof. apply hashes_key, key_idem'. Qed.
Lemma key_zlen p q : key p = key q -> zlen p = zlen q.
Proof. intros H. unfold zlen. f_equal. rewrite <- (key_length p), H. apply key_length. Qed.

Lemma hits_live p e : entry_ok e -> t_status e <> 13 -> (hits (snd (hashes c p)) p e = true <-> key (t_name e) = key p).
Proof.
  intros (H1 & H2 & H3 & H4 & _) N. specialize (H4 N). unfold hits. rewrite !andb_true_iff, !Z.eqb_eq, H4. split.
  - intros [[Q1 Q2] Q3]. unfold zlen in Q2. assert (L : length (t_name e) = length p) by lia.
    apply string_compare_spec in Q3; [|lia|lia]. rewrite <- L in Q3 at 2. rewrite !firstn_all in Q3. congruence.
  - intros Q. pose proof (key_zlen _ _ Q) as QL. split; [split; [|exact QL]|].
    + rewrite H1. f_equal. apply hashes_key, Q.
    + unfold zlen in QL. apply string_compare_spec; [lia|lia|]. replace (length p) with (length (t_name e)) at 2 by lia. rewrite !firstn_all. congruence.
Qed.
Lemma status_cases e : entry_ok e -> t_status e = 1 \/ t_status e = 2 \/ t_status e = 11 \/ t_status e = 13.
Proof. intros (_ & _ & H & _). cbn in H. intuition congruence. Qed.

Lemma same_true p q : same p q = true <-> p = q.
Proof. unfold same. destruct (list_eq_dec Z.eq_dec p q); split; congruence. Qed.
Lemma same_false p q : same p q = false <-> p <> q.
Proof. unfold same. destruct (list_eq_dec Z.eq_dec p q); split; congruence. Qed.
Lemma same_refl p : same p p = true. Proof. apply same_true. reflexivity. Qed.
Lemma primary_in b x q : NoDup (map fst (aka b)) -> (primary_of b x = Some q <-> In (x, q) (aka b)).
Proof.
  unfold primary_of. generalize (aka b) as l. clear. induction l as [|[y r] l IH]; intros ND; cbn [find option_map fst snd map] in *; [split; [discriminate|contradiction]|].
  inversion ND as [|? ? N1 N2]; subst. destruct (same y x) eqn:Q.
  - apply same_true in Q. subst y. cbn. split.
    + intros H. left. congruence.
    + intros [H|H]; [congruence|]. exfalso. apply N1. apply in_map_iff. exists (x, q). auto.
  - apply same_false in Q. rewrite (IH N2). split; [right; assumption|]. intros [H|H]; [congruence|exact H].
Qed.
Lemma aliases_in b x q : In x (aliases b q) <-> In (x, q) (aka b).
Proof.
  unfold aliases. rewrite in_map_iff. split.
  - intros ([y r] & Q1 & Q2). apply filter_In in Q2. destruct Q2 as [Q2 Q3]. cbn [fst snd] in *. apply same_true in Q3. subst. exact Q2.
  - intros H. exists (x, q). split; [reflexivity|]. apply filter_In. split; [exact H|apply same_refl].
Qed.

(** ** Scanning *)
Definition core (s s' : ast) : Prop := a_mem s' = a_mem s /\ a_dir s' = a_dir s /\ a_next s' = a_next s.
Definition keyed (s s' : ast) : Prop := core s s' /\ a_hash s' = a_hash s /\ a_len s' = a_len s /\ a_table s' = a_table s.
Lemma core_refl s : core s s. Proof. repeat split. Qed.
Lemma core_trans s1 s2 s3 : core s1 s2 -> core s2 s3 -> core s1 s3.
Proof. intros (A1 & A2 & A3) (B1 & B2 & B3). repeat split; congruence. Qed.

Lemma scan_spec h p wanted : forall l s, (forall a, In a l -> exists e, a_mem s a = Ent e) ->
  exists found s', scan h p wanted l s = Val found s' /\ keyed s s' /\
    (if found then exists l1 a l2 e, l = l1 ++ a :: l2 /\ a_mem s a = Ent e /\ hits h p e = true /\ wanted_ok (t_status e) wanted = true /\
                    a_stat s' = t_status e /\ a_bin s' = a /\ a_info s' = t_info e /\
                    (forall x e', In x l1 -> a_mem s x = Ent e' -> hits h p e' = true -> wanted_ok (t_status e') wanted = false)
     else (forall x e', In x l -> a_mem s x = Ent e' -> hits h p e' = true -> wanted_ok (t_status e') wanted = false) /\
          (a_stat s' = a_stat s \/ exists x e', In x l /\ a_mem s x = Ent e' /\ hits h p e' = true /\ a_stat s' = t_status e')).
Proof.
  induction l as [|a t IH]; intros s HE; cbn [scan].
  - exists false, s. split; [reflexivity|]. split; [repeat split|]. split; [contradiction|left; reflexivity].
  - destruct (HE a (or_introl eq_refl)) as (e & He). rewrite He. destruct (hits h p e) eqn:HH.
    + destruct (wanted_ok (t_status e) wanted) eqn:HW.
      * exists true, (set_hit a e s). split; [reflexivity|]. split; [repeat split|]. exists [], a, t, e. cbn. repeat split; auto. contradiction.
      * destruct (IH (set_hit a e s)) as (found & s' & H1 & H2 & H3). { intros x Hx. apply HE. right. exact Hx. }
        exists found, s'. split; [exact H1|]. split; [exact H2|]. cbn [a_mem set_hit] in H3. destruct found.
        -- destruct H3 as (l1 & a' & l2 & e' & -> & Q1 & Q2 & Q3 & Q4 & Q5 & Q6 & Q7). exists (a :: l1), a', l2, e'. repeat split; auto.
           intros x e'' [<-|Hx] Q8 Q9; [rewrite He in Q8; inversion Q8; subst; exact HW|eauto].
        -- destruct H3 as [Q1 Q2]. split.
           ++ intros x e' [<-|Hx] Q8 Q9; [rewrite He in Q8; inversion Q8; subst; exact HW|eauto].
           ++ destruct Q2 as [Q2|(x & e' & Q3 & Q4 & Q5 & Q6)]; right; [exists a, e; cbn in Q2|exists x, e']; repeat split; auto; [left; reflexivity|right; assumption].
    + destruct (IH s) as (found & s' & H1 & H2 & H3). { intros x Hx. apply HE. right. exact Hx. }
      exists found, s'. split; [exact H1|]. split; [exact H2|]. destruct found.
      * destruct H3 as (l1 & a' & l2 & e' & -> & Q1 & Q2 & Q3 & Q4 & Q5 & Q6 & Q7). exists (a :: l1), a', l2, e'. repeat split; auto.
        intros x e'' [<-|Hx] Q8 Q9; [rewrite He in Q8; inversion Q8; subst; congruence|eauto].
      * destruct H3 as [Q1 Q2]. split.
        -- intros x e' [<-|Hx] Q8 Q9; [rewrite He in Q8; inversion Q8; subst; congruence|eauto].
        -- destruct Q2 as [Q2|(x & e' & Q3 & Q4 & Q5 & Q6)]; [left; exact Q2|right; exists x, e'; repeat split; auto; right; assumption].
Qed.

(** ** Following a chain *)
Lemma follow_chain m q : forall l a fuel, (length l < fuel)%nat -> chain_to m q a l ->
  exists z n, follow fuel m a = Some (Some z) /\ m z = Inf n /\ key (n_name n) = q.
Proof.
  induction l as [|x t IH]; intros a fuel HF HC; (destruct fuel as [|f]; [cbn in HF; lia|]); cbn [follow chain_to] in *.
  - destruct HC as (n & H1 & H2). rewrite H1. exists a, n. auto.
  - destruct HC as (-> & e & H1 & H2 & H3). rewrite H1, H2. change (2 =? 2) with true. cbv iota. apply IH; [cbn in HF; lia|exact H3].
Qed.
(** A list of distinct addresses below [nx] is shorter than the fuel. *)
Lemma short_list nx l : 0 < nx -> NoDup l -> (forall a, In a l -> 0 < a < nx) -> (length l < Z.to_nat (nx + 1))%nat.
Proof.
  intros HX ND HB. assert (HN : (length l <= length (map Z.of_nat (seq 1 (Z.to_nat (nx - 1)))))%nat).
  { apply NoDup_incl_length; [exact ND|]. intros a Ha. apply HB in Ha. apply in_map_iff. exists (Z.to_nat a). split; [lia|]. apply in_seq. lia. }
  rewrite map_length, seq_length in HN. lia.
Qed.
Lemma chain_split m q : forall l1 x l2 a, chain_to m q a (l1 ++ x :: l2) -> exists e, m x = Ent e /\ t_status e = 2 /\ chain_to m q (t_info e) l2.
Proof.
  induction l1 as [|y l1 IH]; intros x l2 a H; cbn [app chain_to] in H.
  - destruct H as (_ & e & H1 & H2 & H3). eauto.
  - destruct H as (_ & e & _ & _ & H3). eapply IH, H3.
Qed.
Lemma map_filter_nodup {A B} (f : A -> B) (g : A -> bool) l : NoDup (map f l) -> NoDup (map f (filter g l)).
Proof.
  induction l as [|x l IH]; cbn [map filter]; intros H; [constructor|]. inversion H as [|? ? N1 N2]; subst. destruct (g x); [|auto]. cbn [map]. constructor; [|auto].
  intros Q. apply N1. apply in_map_iff in Q. destruct Q as (y & Q1 & Q2). apply filter_In in Q2. apply in_map_iff. exists y. tauto.
Qed.

Section LOOK.
Variables (m : Z -> cell) (dir : Z -> list (list Z)) (nx : Z) (b : book) (ch : list Z -> list Z).
Hypothesis D : Dir m dir nx.
Hypothesis LK : Links m dir b ch.

Lemma ch_nodup q : NoDup (ch q).
Proof. apply (NoDup_map_inv (nm m)). rewrite (k_aka _ _ _ _ LK). apply map_filter_nodup, (k_ndf _ _ _ _ LK). Qed.
Lemma ch_short q : (length (ch q) < Z.to_nat (nx + 1))%nat.
Proof.
  apply short_list; [apply (k_nx _ _ _ D)|apply ch_nodup|]. intros a Ha. destruct (k_ch _ _ _ _ LK q a Ha) as (_ & e & (_ & H) & _).
  apply (k_low _ _ _ D). congruence.
Qed.
Lemma E_ok a e : E m dir a e -> entry_ok e.
Proof. intros [H1 H2]. destruct (k_dir _ _ _ D _ _ H1) as (e' & H3 & _ & H4). rewrite H2 in H3. inversion H3; subst. exact H4. Qed.
Lemma E_uniq a a' e e' : E m dir a e -> E m dir a' e' -> key (t_name e) = key (t_name e') -> live e -> live e' -> a = a' /\ e = e'.
Proof.
  intros [H1 H2] [H3 H4] HK HL HL'. rewrite <- (hashes_key _ _ HK) in H3. assert (a = a') by (eapply (k_live _ _ _ D); eauto). subst a'. split; [reflexivity|congruence].
Qed.
Lemma nm_E a e : E m dir a e -> nm m a = key (t_name e).
Proof. intros [_ H]. unfold nm. rewrite H. reflexivity. Qed.
(** An alias entry and what it belongs to. *)
Lemma ali_E x q : In (x, q) (aka b) <-> exists a e, In a (ch q) /\ E m dir a e /\ t_status e = 2 /\ key (t_name e) = x.
Proof.
  rewrite <- aliases_in, <- (k_aka _ _ _ _ LK q), in_map_iff. split.
  - intros (a & H1 & H2). destruct (k_ch _ _ _ _ LK q a H2) as (_ & e & HE & HS). exists a, e. repeat split; auto; try apply HE. rewrite <- (nm_E a e HE). exact H1.
  - intros (a & e & H1 & H2 & H3 & H4). exists a. split; [rewrite (nm_E a e H2); exact H4|exact H1].
Qed.
Lemma alias_rec x q : In (x, q) (aka b) -> exists v, recs b q = Some v.
Proof. intros H. apply ali_E in H. destruct H as (a & e & H & _). apply (k_ch _ _ _ _ LK) in H. destruct H as [H _]. destruct (recs b q); [eauto|congruence]. Qed.
Lemma ali_chain q a : In a (ch q) -> exists e l, E m dir a e /\ t_status e = 2 /\ chain_to m q (t_info e) l /\ (length l < Z.to_nat (nx + 1))%nat.
Proof.
  intros H. destruct (k_ch _ _ _ _ LK q a H) as (HR & e & HE & HS). destruct (recs b q) as [v|] eqn:ER; [|congruence].
  destruct (k_rec _ _ _ _ LK q v ER) as (a0 & e0 & n & (R1 & R2 & R3 & R4 & R5 & R6 & R7 & R8 & R9)).
  destruct R9 as [[_ R9]|R9]; [rewrite R9 in H; contradiction|]. pose proof (ch_short q) as SH. apply in_split in H. destruct H as (l1 & l2 & EQ). rewrite EQ in R9, SH.
  destruct (chain_split m q l1 a l2 _ R9) as (e' & Q1 & Q2 & Q3). destruct HE as [HE1 HE2]. rewrite HE2 in Q1. inversion Q1; subst e'.
  exists e, l2. repeat split; auto. rewrite app_length in SH. cbn in SH. lia.
Qed.

(** The three cases of a name. *)
Inductive kind (k : list Z) : Prop :=
| is_rec v a e n : recs b k = Some v -> primary_of b k = None -> Rec m dir ch k v a e n -> kind k
| is_alias q v a e : primary_of b k = Some q -> recs b k = None -> recs b q = Some v -> In a (ch q) -> E m dir a e -> t_status e = 2 -> key (t_name e) = k -> kind k
| is_none : recs b k = None -> primary_of b k = None -> (forall a e, E m dir a e -> key (t_name e) = k -> ~ live e) -> kind k.
Lemma kinds k : kind k.
Proof.
  destruct (primary_of b k) as [q|] eqn:EP.
  - pose proof EP as EP'. apply (primary_in b k q (k_ndf _ _ _ _ LK)) in EP'. pose proof (k_apart _ _ _ _ LK _ _ EP') as EA. destruct (alias_rec _ _ EP') as (v & EV).
    apply ali_E in EP'. destruct EP' as (a & e & H1 & H2 & H3 & H4). eapply is_alias; eauto.
  - destruct (recs b k) as [v|] eqn:ER.
    + destruct (k_rec _ _ _ _ LK k v ER) as (a & e & n & H). eapply is_rec; eauto.
    + apply is_none; auto. intros a e HE HK [H|H].
      * apply (k_prim _ _ _ _ LK a e HE H). congruence.
      * destruct (k_ali _ _ _ _ LK a e HE H) as (q & Hq). assert (Q : In (k, q) (aka b)) by (apply ali_E; eauto 10).
        apply (primary_in b k q (k_ndf _ _ _ _ LK)) in Q. congruence.
Qed.
Lemma record_of_rec k v : primary_of b k = None -> recs b k = Some v -> record_of b k = Some v /\ resolve b k = k.
Proof. intros H1 H2. unfold record_of, resolve. rewrite H1. auto. Qed.
Lemma record_of_alias k q v : primary_of b k = Some q -> recs b q = Some v -> record_of b k = Some v /\ resolve b k = q.
Proof. intros H1 H2. unfold record_of, resolve. rewrite H1. auto. Qed.
End LOOK.

(** ** zcheck *)
Section CHECK.
Variables (s : ast) (b : book) (ch : list Z -> list Z).
Hypothesis D : Dir (a_mem s) (a_dir s) (a_next s).
Hypothesis LK : Links (a_mem s) (a_dir s) b ch.
Variable p : list Z.
Let k := key p.

Definition at_name (p : list Z) (s' : ast) : Prop := a_hash s' = snd (hashes c p) /\ a_len s' = zlen p /\ a_table s' = fst (hashes c p).

Lemma ents a : In a (concat (a_dir s (fst (hashes c p)))) -> exists e, a_mem s a = Ent e.
Proof. intros H. destruct (k_dir _ _ _ D _ _ H) as (e & H1 & _). eauto. Qed.
Lemma E_here a e : E (a_mem s) (a_dir s) a e -> key (t_name e) = k -> In a (concat (a_dir s (fst (hashes c p)))).
Proof. intros [H1 _] H2. rewrite (hashes_key (t_name e) p H2) in H1. exact H1. Qed.
Lemma here_E a e : In a (concat (a_dir s (fst (hashes c p)))) -> a_mem s a = Ent e -> E (a_mem s) (a_dir s) a e.
Proof. intros H1 H2. eapply dir_E; eauto. Qed.

(** A live entry with the name is found when its status is wanted. *)
Lemma scan_live a e wanted : E (a_mem s) (a_dir s) a e -> key (t_name e) = k -> live e -> wanted_ok (t_status e) wanted = true ->
  exists s', scan (snd (hashes c p)) p wanted (concat (a_dir s (fst (hashes c p)))) (set_key (hashes c p) (zlen p) s) = Val true s' /\
    core s s' /\ at_name p s' /\ a_stat s' = t_status e /\ a_bin s' = a /\ a_info s' = t_info e.
Proof.
  intros HE HK HL HW. pose proof (E_here a e HE HK) as HI.
  destruct (scan_spec (snd (hashes c p)) p wanted (concat (a_dir s (fst (hashes c p)))) (set_key (hashes c p) (zlen p) s) ents) as (found & s' & H1 & H2 & H3).
  destruct H2 as (H2 & K1 & K2 & K3). cbn [a_mem set_key a_hash a_len a_table a_stat] in *.
  assert (HH : hits (snd (hashes c p)) p e = true).
  { apply hits_live; [eapply E_ok; eauto|destruct HL; lia|exact HK]. }
  destruct found.
  - exists s'. destruct H3 as (l1 & x & l2 & e' & Q1 & Q2 & Q3 & Q4 & Q5 & Q6 & Q7 & Q8).
    assert (Hx : In x (concat (a_dir s (fst (hashes c p))))) by (rewrite Q1; apply in_or_app; right; left; reflexivity).
    pose proof (here_E x e' Hx Q2) as HE'. pose proof (E_ok _ _ _ D _ _ HE') as OK'.
    assert (S13 : t_status e' <> 13) by (intros Q; rewrite Q in Q4; unfold wanted_ok, zcompareRecordStatus in Q4; cbn in Q4; discriminate).
    assert (KE : key (t_name e') = k) by (apply hits_live in Q3; auto).
    assert (EQ : x = a /\ e' = e).
    { destruct (status_cases e' OK') as [Q|[Q|[Q|Q]]]; [| | |congruence].
      - eapply (E_uniq _ _ _ D x a e' e); eauto; [congruence|left; exact Q].
      - eapply (E_uniq _ _ _ D x a e' e); eauto; [congruence|right; exact Q].
      - exfalso. rewrite Q1 in HI. apply in_app_or in HI. destruct HI as [HI|[HI|HI]].
        + rewrite (Q8 a e HI (proj2 HE) HH) in HW. discriminate.
        + subst x. destruct HE as [_ HE]. rewrite HE in Q2. inversion Q2; subst. destruct HL; congruence.
        + apply in_split in HI. destruct HI as (l3 & l4 & ->).
          assert (Q9 : concat (a_dir s (fst (hashes c p))) = (l1 ++ x :: l3) ++ a :: l4) by (rewrite Q1, <- app_assoc; reflexivity).
          eapply (k_first _ _ _ D _ _ _ _ e x e' Q9); [apply HE|exact HL|apply in_or_app; right; left; reflexivity|exact Q2|congruence|exact Q]. }
    destruct EQ as [-> ->]. split; [exact H1|]. split; [exact H2|]. split; [repeat split; assumption|auto].
  - exfalso. destruct H3 as [H3 _]. rewrite (H3 a e HI (proj2 HE) HH) in HW. discriminate.
Qed.
(** No entry with a wanted status: not found. *)
Lemma scan_none wanted : (forall a e, E (a_mem s) (a_dir s) a e -> key (t_name e) = k -> wanted_ok (t_status e) wanted = false) ->
  exists s', scan (snd (hashes c p)) p wanted (concat (a_dir s (fst (hashes c p)))) (set_key (hashes c p) (zlen p) s) = Val false s' /\
    core s s' /\ at_name p s' /\
    (a_stat s' = a_stat s \/ a_stat s' = 13 \/ exists a e, E (a_mem s) (a_dir s) a e /\ key (t_name e) = k /\ a_stat s' = t_status e).
Proof.
  intros HN.
  destruct (scan_spec (snd (hashes c p)) p wanted (concat (a_dir s (fst (hashes c p)))) (set_key (hashes c p) (zlen p) s) ents) as (found & s' & H1 & H2 & H3).
  destruct H2 as (H2 & K1 & K2 & K3). cbn [a_mem set_key a_hash a_len a_table a_stat] in *. destruct found.
  - exfalso. destruct H3 as (l1 & x & l2 & e' & Q1 & Q2 & Q3 & Q4 & _).
    assert (Hx : In x (concat (a_dir s (fst (hashes c p))))) by (rewrite Q1; apply in_or_app; right; left; reflexivity).
    pose proof (here_E x e' Hx Q2) as HE'. pose proof (E_ok _ _ _ D _ _ HE') as OK'.
    assert (S13 : t_status e' <> 13) by (intros Q; rewrite Q in Q4; unfold wanted_ok, zcompareRecordStatus in Q4; cbn in Q4; discriminate).
    assert (KE : key (t_name e') = k) by (apply hits_live in Q3; auto). rewrite (HN x e' HE' KE) in Q4. discriminate.
  - exists s'. split; [exact H1|]. split; [exact H2|]. split; [repeat split; assumption|]. destruct H3 as [_ [H3|(x & e' & Q1 & Q2 & Q3 & Q4)]]; [auto|right].
    pose proof (here_E x e' Q1 Q2) as HE'. destruct (Z.eq_dec (t_status e') 13) as [Q|Q]; [left; congruence|right].
    exists x, e'. repeat split; auto; try apply HE'. apply hits_live in Q3; auto. eapply E_ok; eauto.
Qed.
End CHECK.
End INV.
